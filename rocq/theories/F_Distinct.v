(* F_Distinct.v : when the coordinates in a table of high-symmetry points are pairwise different (property C44). *)
From Verif Require Import Base M_Strings M_Dict M_Numerical M_Geometry M_Cell T_Points.
Open Scope string_scope.
Open Scope list_scope.
Open Scope R_scope.

Definition different (pts : dict vec) : Prop := NoDup (map snd pts).

(* unfold a table, keeping its parameters as local definitions *)
Ltac guards H := repeat match type of H with (if Reqb ?x 0 then _ else _) = _ => destruct (Reqb_spec x 0); [discriminate H|] end.
Tactic Notation "def" hyp(H) ident(y) := guards H; match type of H with (let x := ?e in @?f x) = ?r => pose (y := e); change (f y = r) in H; cbv beta in H end.
Ltac table H := guards H; injection H as <-; unfold different; cbn [map snd].
Ltac pairs := repeat (apply NoDup_cons; [cbn [In]; let J := fresh "J" in intros J;
  repeat (destruct J as [J|J]; [exfalso; injection J; intros; lra|]); contradiction|]); apply NoDup_nil.

Lemma diff_H69 pts : hpkot_table_69 = Ok pts -> different pts.
Proof. unfold hpkot_table_69. intros H. table H. pairs. Qed.
Lemma diff_H70 pts : hpkot_table_70 = Ok pts -> different pts.
Proof. unfold hpkot_table_70. intros H. table H. pairs. Qed.
Lemma diff_H71 pts : hpkot_table_71 = Ok pts -> different pts.
Proof. unfold hpkot_table_71. intros H. table H. pairs. Qed.
Lemma diff_H72 pts : hpkot_table_72 = Ok pts -> different pts.
Proof. unfold hpkot_table_72. intros H. table H. pairs. Qed.
Lemma diff_H75 pts : hpkot_table_75 = Ok pts -> different pts.
Proof. unfold hpkot_table_75. intros H. table H. pairs. Qed.
Lemma diff_H84 pts : hpkot_table_84 = Ok pts -> different pts.
Proof. unfold hpkot_table_84. intros H. table H. pairs. Qed.
Lemma diff_H92 pts : hpkot_table_92 = Ok pts -> different pts.
Proof. unfold hpkot_table_92. intros H. table H. pairs. Qed.
Lemma diff_S2 pts : sc_table_2 = Ok pts -> different pts.
Proof. unfold sc_table_2. intros H. table H. pairs. Qed.
Lemma diff_S3 pts : sc_table_3 = Ok pts -> different pts.
Proof. unfold sc_table_3. intros H. table H. pairs. Qed.
Lemma diff_S4 pts : sc_table_4 = Ok pts -> different pts.
Proof. unfold sc_table_4. intros H. table H. pairs. Qed.
Lemma diff_S5 pts : sc_table_5 = Ok pts -> different pts.
Proof. unfold sc_table_5. intros H. table H. pairs. Qed.
Lemma diff_S8 pts : sc_table_8 = Ok pts -> different pts.
Proof. unfold sc_table_8. intros H. table H. pairs. Qed.
Lemma diff_S13 pts : sc_table_13 = Ok pts -> different pts.
Proof. unfold sc_table_13. intros H. table H. pairs. Qed.
Lemma diff_S20 pts : sc_table_20 = Ok pts -> different pts.
Proof. unfold sc_table_20. intros H. table H. pairs. Qed.
Lemma diff_S21 pts : sc_table_21 = Ok pts -> different pts.
Proof. unfold sc_table_21. intros H. table H. pairs. Qed.

(* ratios of squares *)
Lemma sq_ratio a b : 0 < a -> a < b -> 0 < sq (a / b) < 1.
Proof.
  intros A B. unfold sq. assert (0 < a / b) by (apply Rdiv_lt_0_compat; lra).
  assert (a / b < 1) by (apply (Rmult_lt_reg_r b); [lra|]; unfold Rdiv; rewrite Rmult_assoc, Rinv_l by lra; lra). split; nra.
Qed.
Lemma sq_div a b : b <> 0 -> sq a / sq b = sq (a / b).
Proof. intros B. unfold sq. field. auto. Qed.
Lemma sq_pos a b : 0 < a -> 0 < b -> 0 < sq (a / b).
Proof. intros A B. unfold sq. assert (0 < a / b) by (apply Rdiv_lt_0_compat; lra). nra. Qed.
Lemma sq_inv a b : a <> 0 -> b <> 0 -> sq (a / b) = (a * a) * / (b * b).
Proof. intros A B. unfold sq. field. auto. Qed.
Lemma sq_same a : a <> 0 -> (a * a) * / (a * a) = 1.
Proof. intros A. field. auto. Qed.
Lemma sq_nz a : a <> 0 -> sq a <> 0.
Proof. intros A E. unfold sq in E. apply Rmult_integral in E. tauto. Qed.
Lemma nz_sq a : sq a <> 0 -> a <> 0.
Proof. intros A E. apply A. unfold sq. rewrite E. ring. Qed.
(* inequalities between inverse squares, multiplied by a square *)
Lemma scaled a x y : 0 < a -> x < y -> (a * a) * x < (a * a) * y.
Proof. intros A H. apply Rmult_lt_compat_l; nra. Qed.

Lemma diff_H73 a c pts : 0 < c -> c < a -> hpkot_table_73 a c = Ok pts -> different pts.
Proof. intros C A H. cbv beta delta [hpkot_table_73] in H. def H eta. table H. pose proof (sq_ratio _ _ C A). assert (1 / 4 < eta < 1 / 2) by (unfold eta; lra). clearbody eta. pairs. Qed.
Lemma diff_H74 a c pts : 0 < a -> a < c -> hpkot_table_74 a c = Ok pts -> different pts.
Proof. intros A C H. cbv beta delta [hpkot_table_74] in H. def H eta. def H zeta. table H. pose proof (sq_ratio _ _ A C). assert (1 / 4 < eta < 1 / 2) by (unfold eta; lra).
  assert (0 < zeta < 1 / 2) by (unfold zeta; lra). clearbody eta zeta. pairs. Qed.
Lemma diff_S6 a c pts : 0 < c -> c < a -> sc_table_6 a c = Ok pts -> different pts.
Proof. intros C A H. cbv beta delta [sc_table_6] in H. def H eta. table H. pose proof (sq_ratio _ _ C A).
  assert (1 / 4 < eta < 1 / 2) by (unfold eta; rewrite sq_div by lra; lra). clearbody eta. pairs. Qed.
Lemma diff_S7 a c pts : 0 < a -> a < c -> sc_table_7 a c = Ok pts -> different pts.
Proof. intros A C H. cbv beta delta [sc_table_7] in H. def H eta. def H zeta. table H. pose proof (sq_ratio _ _ A C). assert (1 / 4 < eta < 1 / 2) by (unfold eta; rewrite sq_div by lra; lra).
  assert (0 < zeta < 1 / 2) by (unfold zeta; replace (sq a / (2 * sq c)) with (sq (a / c) / 2) by (unfold sq; field; lra); lra). clearbody eta zeta. pairs. Qed.

(* face-centred orthorhombic *)
Lemma diff_H76 a b c pts : 0 < a -> 0 < b -> 0 < c -> / (b * b) + / (c * c) < / (a * a) -> hpkot_table_76 a b c = Ok pts -> different pts.
Proof.
  intros A B C X H. cbv beta delta [hpkot_table_76] in H. def H zeta. def H eta. table H. apply (scaled a) in X; auto. rewrite sq_same, Rmult_plus_distr_l, <- !sq_inv in X by lra.
  pose proof (sq_pos a b A B). pose proof (sq_pos a c A C).
  assert (1 / 4 < eta < 1 / 2) by (unfold eta; lra). assert (0 < zeta < 1 / 2) by (unfold zeta; lra). clearbody eta zeta. pairs.
Qed.
Lemma diff_H77 a b c pts : 0 < a -> 0 < b -> 0 < c -> / (a * a) + / (b * b) < / (c * c) -> hpkot_table_77 a b c = Ok pts -> different pts.
Proof.
  intros A B C X H. cbv beta delta [hpkot_table_77] in H. def H zeta. def H eta. table H. apply (scaled c) in X; auto. rewrite sq_same, Rmult_plus_distr_l, <- !sq_inv in X by lra.
  pose proof (sq_pos c a C A). pose proof (sq_pos c b C B).
  assert (1 / 4 < eta < 1 / 2) by (unfold eta; lra). assert (0 < zeta < 1 / 2) by (unfold zeta; lra). clearbody eta zeta. pairs.
Qed.
Lemma diff_S9 a b c pts : 0 < a -> 0 < b -> 0 < c -> / (b * b) + / (c * c) < / (a * a) -> sc_table_9 a b c = Ok pts -> different pts.
Proof.
  intros A B C X H. cbv beta delta [sc_table_9] in H. def H eta. def H zeta. table H. apply (scaled a) in X; auto. rewrite sq_same, Rmult_plus_distr_l, <- !sq_inv in X by lra.
  pose proof (sq_pos a b A B). pose proof (sq_pos a c A C).
  assert (1 / 4 < eta < 1 / 2) by (unfold eta; rewrite !sq_div by lra; lra). assert (0 < zeta < 1 / 2) by (unfold zeta; rewrite !sq_div by lra; lra). clearbody eta zeta. pairs.
Qed.
(* none of the three inverse squares is the sum of the other two *)
Lemma oF_params a b c : 0 < a -> 0 < b -> 0 < c -> / (a * a) < / (b * b) + / (c * c) -> / (c * c) < / (a * a) + / (b * b) -> / (b * b) <> / (a * a) + / (c * c) ->
  let eta := (1 + sq (a / b) - sq (a / c)) / 4 in let delta := (1 + sq (b / a) - sq (b / c)) / 4 in let phi := (1 + sq (c / b) - sq (c / a)) / 4 in
  0 < eta /\ 0 < delta < 1 / 2 /\ 0 < phi /\ ((eta < 1 / 2 /\ phi < 1 / 2) \/ (1 / 2 < eta /\ 1 / 2 < phi)).
Proof.
  intros A B C X Y Z eta delta phi.
  assert (X1 := scaled b _ _ B X). assert (X2 := scaled c _ _ C X).
  assert (Y1 := scaled a _ _ A Y). assert (Y2 := scaled b _ _ B Y).
  rewrite !Rmult_plus_distr_l, ?sq_same, <- ?sq_inv in X1, X2, Y1, Y2 by lra.
  split; [unfold eta; lra|]. split; [unfold delta; lra|]. split; [unfold phi; lra|].
  destruct (Rtotal_order (/ (b * b)) (/ (a * a) + / (c * c))) as [W|[W|W]]; [left| contradiction|right];
  (assert (W1 := scaled a _ _ A W); assert (W2 := scaled c _ _ C W); rewrite !Rmult_plus_distr_l, ?sq_same, <- ?sq_inv in W1, W2 by lra; unfold eta, phi; lra).
Qed.
Lemma diff_H78 a b c pts : 0 < a -> 0 < b -> 0 < c -> / (a * a) < / (b * b) + / (c * c) -> / (c * c) < / (a * a) + / (b * b) -> / (b * b) <> / (a * a) + / (c * c) ->
  hpkot_table_78 a b c = Ok pts -> different pts.
Proof.
  intros A B C X Y Z H. cbv beta delta [hpkot_table_78] in H. def H eta. def H delta. def H phi. table H. pose proof (oF_params a b c A B C X Y Z) as (P1 & P2 & P3 & P4).
  fold eta in P1, P4. fold delta in P2. fold phi in P3, P4. clearbody eta delta phi. destruct P4 as [P4|P4]; pairs.
Qed.
Lemma diff_S10 a b c pts : 0 < a -> 0 < b -> 0 < c -> / (a * a) < / (b * b) + / (c * c) -> / (c * c) < / (a * a) + / (b * b) -> / (b * b) <> / (a * a) + / (c * c) ->
  sc_table_10 a b c = Ok pts -> different pts.
Proof.
  intros A B C X Y Z H. cbv beta delta [sc_table_10] in H. def H eta. def H delta. def H phi. table H. pose proof (oF_params a b c A B C X Y Z) as (P1 & P2 & P3 & P4).
  assert (E1 : eta = (1 + sq (a / b) - sq (a / c)) / 4) by (unfold eta; rewrite !sq_div by lra; reflexivity).
  assert (E2 : delta = (1 + sq (b / a) - sq (b / c)) / 4) by (unfold delta; rewrite !sq_div by lra; reflexivity).
  assert (E3 : phi = (1 + sq (c / b) - sq (c / a)) / 4) by (unfold phi; rewrite !sq_div by lra; reflexivity).
  rewrite <- E1 in P1, P4. rewrite <- E2 in P2. rewrite <- E3 in P3, P4. clear E1 E2 E3. clearbody eta delta phi. destruct P4 as [P4|P4]; pairs.
Qed.
(* body-centred orthorhombic *)
Lemma diff_H79 a b c pts : 0 < a -> 0 < b -> a < c -> b < c -> hpkot_table_79 a b c = Ok pts -> different pts.
Proof.
  intros A B X Y H. cbv beta delta [hpkot_table_79] in H. def H zeta. def H eta. def H delta. def H mu. table H. pose proof (sq_ratio _ _ A X). pose proof (sq_ratio _ _ B Y).
  assert (D : delta = (sq (b / c) - sq (a / c)) / 4) by (unfold delta, sq; field; lra). assert (M : mu = (sq (a / c) + sq (b / c)) / 4) by (unfold mu, sq; field; lra).
  assert (E : eta = (1 + sq (b / c)) / 4) by reflexivity. assert (Z : zeta = (1 + sq (a / c)) / 4) by reflexivity.
  clearbody delta mu eta zeta. pairs.
Qed.
Lemma diff_H80 a b c pts : 0 < b -> 0 < c -> b < a -> c < a -> hpkot_table_80 a b c = Ok pts -> different pts.
Proof.
  intros A B X Y H. cbv beta delta [hpkot_table_80] in H. def H zeta. def H eta. def H delta. def H mu. table H. pose proof (sq_ratio _ _ A X). pose proof (sq_ratio _ _ B Y).
  assert (D : delta = (sq (c / a) - sq (b / a)) / 4) by (unfold delta, sq; field; lra). assert (M : mu = (sq (b / a) + sq (c / a)) / 4) by (unfold mu, sq; field; lra).
  assert (E : eta = (1 + sq (c / a)) / 4) by reflexivity. assert (Z : zeta = (1 + sq (b / a)) / 4) by reflexivity.
  clearbody delta mu eta zeta. pairs.
Qed.
Lemma diff_H81 a b c pts : 0 < a -> 0 < c -> a < b -> c < b -> hpkot_table_81 a b c = Ok pts -> different pts.
Proof.
  intros A B X Y H. cbv beta delta [hpkot_table_81] in H. def H zeta. def H eta. def H delta. def H mu. table H. pose proof (sq_ratio _ _ A X). pose proof (sq_ratio _ _ B Y).
  assert (D : delta = (sq (a / b) - sq (c / b)) / 4) by (unfold delta, sq; field; lra). assert (M : mu = (sq (c / b) + sq (a / b)) / 4) by (unfold mu, sq; field; lra).
  assert (E : eta = (1 + sq (a / b)) / 4) by reflexivity. assert (Z : zeta = (1 + sq (c / b)) / 4) by reflexivity.
  clearbody delta mu eta zeta. pairs.
Qed.
Lemma diff_S11 a b c pts : 0 < a -> 0 < b -> a < c -> b < c -> sc_table_11 a b c = Ok pts -> different pts.
Proof.
  intros A B X Y H. cbv beta delta [sc_table_11] in H. def H zeta. def H eta. def H delta. def H mu. table H. pose proof (sq_ratio _ _ A X). pose proof (sq_ratio _ _ B Y).
  assert (D : delta = (sq (b / c) - sq (a / c)) / 4) by (unfold delta, sq; field; lra). assert (M : mu = (sq (a / c) + sq (b / c)) / 4) by (unfold mu, sq; field; lra).
  assert (E : eta = (1 + sq (b / c)) / 4) by (unfold eta, sq; field; lra). assert (Z : zeta = (1 + sq (a / c)) / 4) by (unfold zeta, sq; field; lra).
  clearbody delta mu eta zeta. pairs.
Qed.
(* base-centred orthorhombic *)
Lemma diff_H82 a b c lt pts : 0 < a -> 0 < b -> (lt = "oC" -> a < b) -> (lt = "oA" -> b < c) -> hpkot_table_82 a b c lt = Ok pts -> different pts.
Proof.
  intros A B X Y H. cbv beta delta [hpkot_table_82] in H.
  match type of H with (do z <- ?e; _) = _ => destruct e as [zeta|] eqn:E; [cbn [bind] in H|discriminate H] end.
  assert (1 / 4 < zeta < 1 / 2).
  { destruct (String.eqb_spec lt "oA") as [->|]; [|destruct (String.eqb_spec lt "oC") as [->|]; [|discriminate]].
    - destruct (Reqb_spec c 0); [discriminate|]. injection E as <-. pose proof (sq_ratio _ _ B (Y eq_refl)). lra.
    - destruct (Reqb_spec b 0); [discriminate|]. injection E as <-. pose proof (sq_ratio _ _ A (X eq_refl)). lra. }
  table H. pairs.
Qed.
Lemma diff_H83 a b c lt pts : 0 < b -> 0 < c -> (lt = "oC" -> b < a) -> (lt = "oA" -> c < b) -> hpkot_table_83 a b c lt = Ok pts -> different pts.
Proof.
  intros A B X Y H. cbv beta delta [hpkot_table_83] in H.
  match type of H with (do z <- ?e; _) = _ => destruct e as [zeta|] eqn:E; [cbn [bind] in H|discriminate H] end.
  assert (1 / 4 < zeta < 1 / 2).
  { destruct (String.eqb_spec lt "oA") as [->|]; [|destruct (String.eqb_spec lt "oC") as [->|]; [|discriminate]].
    - destruct (Reqb_spec b 0); [discriminate|]. injection E as <-. pose proof (sq_ratio _ _ B (Y eq_refl)). lra.
    - destruct (Reqb_spec a 0); [discriminate|]. injection E as <-. pose proof (sq_ratio _ _ A (X eq_refl)). lra. }
  table H. pairs.
Qed.
Lemma diff_S12 a b pts : 0 < a -> a < b -> sc_table_12 a b = Ok pts -> different pts.
Proof. intros A B H. cbv beta delta [sc_table_12] in H. def H zeta. table H. pose proof (sq_ratio _ _ A B). assert (1 / 4 < zeta < 1 / 2) by (unfold zeta; rewrite sq_div by lra; lra). clearbody zeta. pairs. Qed.

(* rhombohedral *)
Lemma diff_H85 a c pts : 0 < a -> 0 < c -> 3 * (a * a) < 2 * (c * c) -> hpkot_table_85 a c = Ok pts -> different pts.
Proof.
  intros A C X H. cbv beta delta [hpkot_table_85] in H. def H delta. def H eta. def H nu. table H. pose proof (sq_pos _ _ A C).
  assert (Q : sq (a / c) * (c * c) = a * a) by (unfold sq; field; lra). assert (0 < c * c) by nra. assert (sq (a / c) < 2 / 3) by nra.
  assert (D : 0 < delta < 1 / 6) by (unfold delta; lra). assert (E : eta = 5 / 6 - 2 * delta) by reflexivity. assert (N : nu = 1 / 3 + delta) by reflexivity.
  clearbody delta eta nu. clear H0 Q H H1. pairs.
Qed.
Lemma diff_H86 a c pts : 0 < a -> 0 < c -> 2 * (c * c) < 3 * (a * a) -> hpkot_table_86 a c = Ok pts -> different pts.
Proof.
  intros A C X H. cbv beta delta [hpkot_table_86] in H. def H zeta. def H eta. def H nu. table H. pose proof (sq_pos _ _ C A).
  assert (Q : sq (c / a) * (a * a) = c * c) by (unfold sq; field; lra). assert (0 < a * a) by nra. assert (sq (c / a) < 3 / 2) by nra.
  assert (D : 0 < zeta < 1 / 6) by (unfold zeta; lra). assert (E : eta = 1 / 2 - 2 * zeta) by reflexivity. assert (N : nu = 1 / 2 + zeta) by reflexivity.
  clearbody zeta eta nu. clear H0 Q H H1. pairs.
Qed.
Lemma diff_S14 alpha pts : 0 < cos (alpha * TORADIANS) -> sc_table_14 alpha = Ok pts -> different pts.
Proof.
  intros X H. cbv beta delta [sc_table_14] in H. def H alpha0. def H eta. def H nu. table H. fold alpha0 in X. clearbody alpha0. pose proof (COS_bound alpha0) as (_ & Y).
  assert (Q : eta * (2 + 4 * cos alpha0) = 1 + 4 * cos alpha0) by (unfold eta; field; auto).
  assert (1 / 2 < eta <= 5 / 6) by (split; nra). assert (N : nu = 3 / 4 - eta / 2) by reflexivity. clearbody eta nu. clear Q. pairs.
Qed.
Lemma diff_S15 alpha pts : 1 < sq (tan (alpha * TORADIANS / 2)) -> sc_table_15 alpha = Ok pts -> different pts.
Proof.
  intros X H. cbv beta delta [sc_table_15] in H. def H alpha0. def H eta. def H nu. table H. fold alpha0 in X. set (w := sq (tan (alpha0 / 2))) in *. clearbody w.
  assert (Q : eta * (2 * w) = 1) by (unfold eta; field; lra).
  assert (0 < eta < 1 / 2) by (split; nra). assert (N : nu = 3 / 4 - eta / 2) by reflexivity. clearbody eta nu. clear Q. pairs.
Qed.

(* Monoclinic.  The oblique plane is given by two ratios: t = D / A and u = D / E, where A and E are the
   squared lengths of its two vectors and D is (up to the sign) their product; j = 1 / sin^2;
   k = A / B with B the squared length of the unique axis. *)
Lemma oblique_pos t u j : 0 < t < 1 -> 0 < u < 1 -> j * (1 - t * u) = 1 ->
  1 < j /\ 0 < t * u * j /\ t * u * j < t * j /\ t * u * j < u * j /\ t * j < j /\ u * j < j /\ j = 1 + t * u * j.
Proof.
  intros T U J. assert (0 < t * u) by (apply Rmult_lt_0_compat; lra). assert (t * u < 1) by nra.
  assert (0 < j) by nra. assert (0 < t * u * j) by (apply Rmult_lt_0_compat; auto). assert (j = 1 + t * u * j) by lra.
  assert (0 < t * j) by (apply Rmult_lt_0_compat; lra). assert (0 < u * j) by (apply Rmult_lt_0_compat; lra).
  repeat split; try lra; nra.
Qed.
Lemma facts_P t u j : 0 < t < 1 -> 0 < u < 1 -> j * (1 - t * u) = 1 ->
  0 < (1 - u) * j / 2 < 1 / 2 /\ 0 < (1 - t) * j / 2 < 1 / 2.
Proof. intros T U J. destruct (oblique_pos _ _ _ T U J) as (A & B & C & D & E & F & G). split; lra. Qed.
Lemma facts_1 t u j k : 0 < t < 1 / 2 -> 0 < u < 1 -> j * (1 - t * u) = 1 -> j < k ->
  let zeta := (2 - u) * j / 4 in let eta := 1 / 2 + t * (2 - u) * j / 2 in let psi := 3 / 4 - j / k / 4 in let phi := psi + (3 / 4 - psi) * u in
  0 < zeta < 1 / 2 /\ 1 / 2 < eta < 1 /\ 1 / 2 < psi < 3 / 4 /\ 1 / 2 < phi < 3 / 4.
Proof.
  intros T U J K zeta eta psi phi. assert (T' : 0 < t < 1) by lra. destruct (oblique_pos _ _ _ T' U J) as (A & B & C & D & E & F & G).
  assert (X : 0 < (1 - 2 * t) * (u * j)) by (apply Rmult_lt_0_compat; lra). assert (Y : 0 < (1 - 2 * t) * j) by (apply Rmult_lt_0_compat; lra).
  assert (Z : 0 < t * j * (2 - u)) by (apply Rmult_lt_0_compat; lra).
  assert (Q : j / k * k = j) by (field; lra). assert (0 < j / k) by (apply Rdiv_lt_0_compat; lra). assert (j / k < 1) by nra.
  assert (P : 1 / 2 < psi < 3 / 4) by (unfold psi; lra).
  split; [unfold zeta; lra|]. split; [unfold eta; lra|]. split; auto. clearbody psi. unfold phi. split; nra.
Qed.
Lemma facts_2 t u j k : 0 < t < 1 / 2 -> 0 < u < 1 -> j * (1 - t * u) = 1 -> 0 < k -> k < (1 - u) * j ->
  0 < t * k /\ t * k < t * j - t * u * j /\ 2 * (t * j - t * u * j) < 1 /\ j - u * j < 1 /\ k < j - u * j.
Proof.
  intros T U J K L. assert (T' : 0 < t < 1) by lra. destruct (oblique_pos _ _ _ T' U J) as (A & B & C & D & E & F & G).
  assert (0 < t * k) by (apply Rmult_lt_0_compat; lra).
  assert (0 < t * ((1 - u) * j - k)) by (apply Rmult_lt_0_compat; lra).
  assert (Y : 0 < (1 - 2 * t) * j) by (apply Rmult_lt_0_compat; lra).
  repeat split; lra.
Qed.
Lemma facts_3 t u j k : 0 < t < 1 / 2 -> 0 < u < 1 -> j * (1 - t * u) = 1 -> (1 - u) * j < k -> k < j ->
  exists z v m, let p := u * j in let q := t * j in let w := t * u * j in
  k = z + j - p /\ m = t * z /\ u * v = m /\ t * k = m + q - w /\ u * q = w /\ u * w = u * (t * u * j) /\
  0 < m /\ m < v /\ v < q /\ 0 < z /\ z < p /\ 2 * m < z /\ 2 * q - w < 1 /\ 2 * w < p /\ w < q /\ 0 < w /\ m < w /\ j = 1 + w /\
  2 * v - m < 2 * q - w /\ v - m < q - w /\ z - m < p - w.
Proof.
  intros T U J K L. assert (T' : 0 < t < 1) by lra. destruct (oblique_pos _ _ _ T' U J) as (A & B & C & D & E & F & G).
  exists (k - (1 - u) * j), ((k - (1 - u) * j) * t / u), (t * (k - (1 - u) * j)). cbv zeta.
  set (z := k - (1 - u) * j). assert (Z : 0 < z < u * j) by (unfold z; lra).
  assert (KZ : k = z + j - u * j) by (unfold z; lra). clearbody z.
  set (v := z * t / u). assert (V : u * v = t * z) by (unfold v; field; lra). clearbody v.
  assert (0 < t * z) by (apply Rmult_lt_0_compat; lra).
  assert (0 < v) by nra. assert (0 < (1 - u) * v) by (apply Rmult_lt_0_compat; lra).
  assert (0 < t * (u * j - z)) by (apply Rmult_lt_0_compat; lra).
  assert (v < t * j) by nra.
  assert (0 < (1 - 2 * t) * z) by (apply Rmult_lt_0_compat; lra).
  assert (0 < (1 - 2 * t) * j) by (apply Rmult_lt_0_compat; lra).
  assert (0 < (1 - 2 * t) * (u * j)) by (apply Rmult_lt_0_compat; lra).
  assert (0 < (1 - u) * (t * j - v)) by (apply Rmult_lt_0_compat; lra).
  assert (0 < (1 - t) * (u * j - z)) by (apply Rmult_lt_0_compat; lra).
  repeat split; try lra; try (rewrite KZ; ring); try ring.
Qed.
Lemma ratios x y q s : 0 < x -> 0 < y -> q * q + s * s = 1 -> s <> 0 -> 0 < q -> / (s * s) * (1 - y * q / x * (x * q / y)) = 1 /\ 0 < y * q / x /\ 0 < x * q / y.
Proof.
  intros X Y PY S Q. split; [|split; apply Rdiv_lt_0_compat; auto; apply Rmult_lt_0_compat; auto].
  replace (y * q / x * (x * q / y)) with (q * q) by (field; lra). replace (1 - q * q) with (s * s) by lra. field. auto.
Qed.
Lemma ratio_lt x y z : 0 < z -> x < y * z -> x / z < y.
Proof. intros Z H. apply (Rmult_lt_reg_r z); auto. unfold Rdiv. rewrite Rmult_assoc, Rinv_l by lra. lra. Qed.
(* the same for the two conventions: in HPKOT the oblique angle is obtuse *)
Lemma diff_H87 a c beta pts : 0 < a -> 0 < c -> let q := - cos (beta * TORADIANS) in 0 < q -> c * q < a -> a * q < c -> hpkot_table_87 a c beta = Ok pts -> different pts.
Proof.
  intros A C q Q X Y H. cbv beta delta [hpkot_table_87] in H. def H beta0. def H eta. def H nu. table H. fold beta0 in q.
  assert (PY := sin2_cos2 beta0). unfold Rsqr in PY. set (s := sin beta0) in *. apply nz_sq in n0.
  assert (QQ : cos beta0 = - q) by (unfold q; ring). destruct (ratios a c q s A C) as (J & T & U); auto; [rewrite QQ in PY; lra|].
  assert (T1 : c * q / a < 1) by (apply ratio_lt; lra). assert (U1 : a * q / c < 1) by (apply ratio_lt; lra).
  destruct (facts_P _ _ _ (conj T T1) (conj U U1) J) as (F1 & F2).
  assert (E1 : eta = (1 - a * q / c) * / (s * s) / 2) by (unfold eta; rewrite QQ; unfold sq; field; lra).
  assert (E2 : nu = (1 - c * q / a) * / (s * s) / 2).
  { transitivity ((/ (s * s) * (1 - c * q / a * (a * q / c)) - c * q / a * (1 - a * q / c) * / (s * s)) / 2); [rewrite J; unfold nu; rewrite E1, QQ; field; lra|field; lra]. }
  rewrite <- E1 in F1. rewrite <- E2 in F2. clear E1 E2. clearbody eta nu. clear - F1 F2. pairs.
Qed.
Lemma diff_S16 b c alpha pts : 0 < b -> 0 < c -> let q := cos (alpha * TORADIANS) in 0 < q -> c * q < b -> b * q < c -> sc_table_16 b c alpha = Ok pts -> different pts.
Proof.
  intros A C q Q X Y H. cbv beta delta [sc_table_16] in H. def H alpha0. def H eta. def H nu. table H. fold alpha0 in q.
  assert (PY := sin2_cos2 alpha0). unfold Rsqr in PY. set (s := sin alpha0) in *. assert (S : s <> 0) by (intros S; apply n0; rewrite S; unfold sq; ring). fold q in PY.
  destruct (ratios b c q s A C) as (J & T & U); auto; [lra|].
  assert (T1 : c * q / b < 1) by (apply ratio_lt; lra). assert (U1 : b * q / c < 1) by (apply ratio_lt; lra).
  destruct (facts_P _ _ _ (conj T T1) (conj U U1) J) as (F1 & F2).
  assert (E1 : eta = (1 - b * q / c) * / (s * s) / 2) by (unfold eta; fold q; unfold sq; field; lra).
  assert (E2 : nu = (1 - c * q / b) * / (s * s) / 2).
  { transitivity ((/ (s * s) * (1 - c * q / b * (b * q / c)) - c * q / b * (1 - b * q / c) * / (s * s)) / 2); [rewrite J; unfold nu; rewrite E1; fold q; field; lra|field; lra]. }
  rewrite <- E1 in F1. rewrite <- E2 in F2. clear E1 E2. clearbody eta nu. clear - F1 F2. pairs.
Qed.
Lemma diff_H88 a b c beta pts : 0 < a -> 0 < b -> 0 < c -> let q := - cos (beta * TORADIANS) in let s := sin (beta * TORADIANS) in
  0 < q -> 0 < s -> 2 * (c * q) < a -> a * q < c -> b < a * s -> hpkot_table_88 a b c beta = Ok pts -> different pts.
Proof.
  intros A B C q s Q S X Y Z H. cbv beta delta [hpkot_table_88] in H. def H beta0. def H zeta. def H eta. def H psi. def H phi. table H. fold beta0 in q, s.
  assert (PY := sin2_cos2 beta0). unfold Rsqr in PY. fold s in PY.
  assert (QQ : cos beta0 = - q) by (unfold q; ring). destruct (ratios a c q s A C) as (J & T & U); auto; [rewrite QQ in PY; lra|lra|].
  assert (T1 : c * q / a < 1 / 2) by (apply ratio_lt; lra). assert (U1 : a * q / c < 1) by (apply ratio_lt; lra).
  assert (K : / (s * s) < a * a / (b * b)).
  { apply (Rmult_lt_reg_r (s * s * (b * b))); [apply Rmult_lt_0_compat; nra|].
    replace (/ (s * s) * (s * s * (b * b))) with (b * b) by (field; lra). replace (a * a / (b * b) * (s * s * (b * b))) with (a * s * (a * s)) by (field; lra). nra. }
  destruct (facts_1 _ _ _ _ (conj T T1) (conj U U1) J K) as (F1 & F2 & F3 & F4).
  assert (E1 : zeta = (2 - a * q / c) * / (s * s) / 4) by (unfold zeta; fold s; rewrite QQ; unfold sq; field; lra).
  assert (E2 : eta = 1 / 2 + c * q / a * (2 - a * q / c) * / (s * s) / 2) by (unfold eta; rewrite E1, QQ; field; lra).
  assert (E3 : psi = 3 / 4 - / (s * s) / (a * a / (b * b)) / 4) by (unfold psi; fold s; unfold sq; field; lra).
  rewrite <- E1 in F1. rewrite <- E2 in F2. rewrite <- E3 in F3, F4.
  assert (E4 : phi = psi + (3 / 4 - psi) * (a * q / c)) by (unfold phi; rewrite QQ; field; lra).
  rewrite <- E4 in F4. clear E1 E2 E3 E4. clearbody zeta eta psi phi. clear - F1 F2 F3 F4. pairs.
Qed.
Lemma diff_S17 a b c alpha pts : 0 < a -> 0 < b -> 0 < c -> let q := cos (alpha * TORADIANS) in let s := sin (alpha * TORADIANS) in
  0 < q -> 0 < s -> 2 * (c * q) < b -> b * q < c -> a < b * s -> sc_table_17 a b c alpha = Ok pts -> different pts.
Proof.
  intros A B C q s Q S X Y Z H. cbv beta delta [sc_table_17] in H. def H alpha0. def H zeta. def H eta. def H psi. def H phi. table H. fold alpha0 in q, s.
  assert (PY := sin2_cos2 alpha0). unfold Rsqr in PY. fold s q in PY.
  destruct (ratios b c q s B C) as (J & T & U); auto; [lra|lra|].
  assert (T1 : c * q / b < 1 / 2) by (apply ratio_lt; lra). assert (U1 : b * q / c < 1) by (apply ratio_lt; lra).
  assert (K : / (s * s) < b * b / (a * a)).
  { apply (Rmult_lt_reg_r (s * s * (a * a))); [apply Rmult_lt_0_compat; nra|].
    replace (/ (s * s) * (s * s * (a * a))) with (a * a) by (field; lra). replace (b * b / (a * a) * (s * s * (a * a))) with (b * s * (b * s)) by (field; lra). nra. }
  destruct (facts_1 _ _ _ _ (conj T T1) (conj U U1) J K) as (F1 & F2 & F3 & F4).
  assert (E1 : zeta = (2 - b * q / c) * / (s * s) / 4) by (unfold zeta; fold s q; unfold sq; field; lra).
  assert (E2 : eta = 1 / 2 + c * q / b * (2 - b * q / c) * / (s * s) / 2) by (unfold eta; rewrite E1; fold q; field; lra).
  assert (E3 : psi = 3 / 4 - / (s * s) / (b * b / (a * a)) / 4) by (unfold psi; fold s; unfold sq; field; lra).
  rewrite <- E1 in F1. rewrite <- E2 in F2. rewrite <- E3 in F3, F4.
  assert (E4 : phi = psi + (3 / 4 - psi) * (b * q / c)) by (unfold phi; fold q; field; lra).
  rewrite <- E4 in F4. clear E1 E2 E3 E4. clearbody zeta eta psi phi. clear - F1 F2 F3 F4. pairs.
Qed.
(* k = A / B against (1 - u) j *)
Lemma diff_H89 a b c beta pts : 0 < a -> 0 < b -> 0 < c -> let q := - cos (beta * TORADIANS) in let s := sin (beta * TORADIANS) in
  0 < q -> 2 * (c * q) < a -> a * q < c -> a * q / c + a * s * (a * s) / (b * b) < 1 -> hpkot_table_89 a b c beta = Ok pts -> different pts.
Proof.
  intros A B C q s Q X Y Z H. cbv beta delta [hpkot_table_89] in H. def H beta0. def H mu. def H delta. def H zeta. def H eta. def H phi. def H psi. table H. fold beta0 in q, s.
  assert (PY := sin2_cos2 beta0). unfold Rsqr in PY. fold s in PY. assert (S : s <> 0) by (apply nz_sq; assumption). assert (SS : 0 < s * s) by nra.
  assert (QQ : cos beta0 = - q) by (unfold q; ring). destruct (ratios a c q s A C) as (J & T & U); auto; [rewrite QQ in PY; lra|].
  assert (T1 : c * q / a < 1 / 2) by (apply ratio_lt; lra). assert (U1 : a * q / c < 1) by (apply ratio_lt; lra).
  assert (K0 : 0 < a * a / (b * b)) by (apply Rdiv_lt_0_compat; nra).
  assert (K : a * a / (b * b) < (1 - a * q / c) * / (s * s)).
  { apply (Rmult_lt_reg_r (s * s)); auto. rewrite Rmult_assoc, Rinv_l by lra. replace (a * a / (b * b) * (s * s)) with (a * s * (a * s) / (b * b)) by (field; lra). lra. }
  destruct (facts_2 _ _ _ _ (conj T T1) (conj U U1) J K0 K) as (F1 & F2 & F3 & F4 & F5).
  set (t := c * q / a) in *. set (u := a * q / c) in *. set (j := / (s * s)) in *. set (k := a * a / (b * b)) in *.
  assert (E0 : mu = (1 + k) / 4) by (unfold mu, k, sq; field; lra).
  assert (E1 : delta = t * k / 2) by (unfold delta, t, k; rewrite QQ; unfold sq; field; lra).
  assert (E2 : zeta = (k + (j - u * j)) / 4) by (unfold zeta, k, j, u; fold s; rewrite QQ; unfold sq; field; lra).
  assert (E3 : eta = 1 / 2 + (t * k + (t * j - t * u * j)) / 2) by (unfold eta; rewrite E2, QQ; unfold t; field; lra).
  assert (E4 : phi = 1 + zeta - 2 * mu) by reflexivity. assert (E5 : psi = eta - 2 * delta) by reflexivity.
  clearbody mu delta zeta eta phi psi. clear - E0 E1 E2 E3 E4 E5 F1 F2 F3 F4 F5 K0.
  set (tk := t * k) in *. clearbody tk. set (x := t * j - t * u * j) in *. clearbody x. set (y := j - u * j) in *. clearbody y. clear t u j. pairs.
Qed.
Lemma diff_S18 a b c alpha pts : 0 < a -> 0 < b -> 0 < c -> let q := cos (alpha * TORADIANS) in let s := sin (alpha * TORADIANS) in
  0 < q -> 2 * (c * q) < b -> b * q < c -> b / c * q + b * b / (a * a) * (s * s) < 1 -> sc_table_18 a b c alpha = Ok pts -> different pts.
Proof.
  intros A B C q s Q X Y Z H. cbv beta delta [sc_table_18] in H. def H alpha0. def H mu. def H delta. def H zeta. def H eta. def H phi. def H psi. table H. fold alpha0 in q, s.
  assert (PY := sin2_cos2 alpha0). unfold Rsqr in PY. fold s q in PY.
  assert (S : s <> 0) by (intros S; match goal with N : 4 * sq (sin alpha0) <> 0 |- _ => apply N; fold s; rewrite S; unfold sq; ring end). assert (SS : 0 < s * s) by nra.
  destruct (ratios b c q s B C) as (J & T & U); auto; [lra|].
  assert (T1 : c * q / b < 1 / 2) by (apply ratio_lt; lra). assert (U1 : b * q / c < 1) by (apply ratio_lt; lra).
  assert (K0 : 0 < b * b / (a * a)) by (apply Rdiv_lt_0_compat; nra).
  assert (K : b * b / (a * a) < (1 - b * q / c) * / (s * s)).
  { apply (Rmult_lt_reg_r (s * s)); auto. rewrite Rmult_assoc, Rinv_l by lra. replace (b * q / c) with (b / c * q) by (field; lra). lra. }
  destruct (facts_2 _ _ _ _ (conj T T1) (conj U U1) J K0 K) as (F1 & F2 & F3 & F4 & F5).
  set (t := c * q / b) in *. set (u := b * q / c) in *. set (j := / (s * s)) in *. set (k := b * b / (a * a)) in *.
  assert (E0 : mu = (1 + k) / 4) by (unfold mu, k, sq; field; lra).
  assert (E1 : delta = t * k / 2) by (unfold delta, t, k; fold q; unfold sq; field; lra).
  assert (E2 : zeta = (k + (j - u * j)) / 4) by (unfold zeta; rewrite E0; unfold k, j, u; fold s q; unfold sq; field; lra).
  assert (E3 : eta = 1 / 2 + (t * k + (t * j - t * u * j)) / 2) by (unfold eta; rewrite E2; fold q; unfold t; field; lra).
  assert (E4 : phi = 1 + zeta - 2 * mu) by reflexivity. assert (E5 : psi = eta - 2 * delta) by reflexivity.
  clearbody mu delta zeta eta phi psi. clear - E0 E1 E2 E3 E4 E5 F1 F2 F3 F4 F5 K0.
  set (tk := t * k) in *. clearbody tk. set (x := t * j - t * u * j) in *. clearbody x. set (y := j - u * j) in *. clearbody y. clear t u j. pairs.
Qed.
(* the parameters of the last variation *)
Lemma facts_3_params t u j k rho zeta eta mu nu omega delta : 0 < t < 1 / 2 -> 0 < u < 1 -> j * (1 - t * u) = 1 -> (1 - u) * j < k -> k < j ->
  zeta = (k + (j - u * j)) / 4 -> rho = 1 - zeta / k -> eta = 1 / 2 + 2 * zeta * t -> mu = eta / 2 + k / 4 - t * k / 2 -> nu = 2 * mu - zeta ->
  2 * u * omega = - (1 - 4 * nu + k * (1 - t * u)) -> delta = - 1 / 4 + omega / 2 + zeta * t ->
  exists z v m p q w, rho = 3 / 4 - (1 - z / k) / 4 /\ 1 / 2 < rho < 3 / 4 /\ zeta = (z + 2 * (1 + w - p)) / 4 /\ eta = 1 / 2 + (m + 2 * q - 2 * w) / 2 /\ mu = (1 + z + (1 + w - p) - m) / 4 /\
    nu = 1 / 2 + (z - 2 * m) / 4 /\ omega = 1 / 2 - (2 * v - m) / 2 /\ delta = (q - w - v + m) / 2 /\
    0 < m /\ m < v /\ v < q /\ 0 < z /\ z < p /\ 2 * m < z /\ 2 * q - w < 1 /\ 2 * w < p /\ w < q /\ 0 < w /\ m < w /\
    2 * v - m < 2 * q - w /\ v - m < q - w /\ z - m < p - w /\ p < 1 + w.
Proof.
  intros T U J K L EZ ER EE EM EN EO ED. destruct (facts_3 t u j k T U J K L) as (z & v & m & F). cbv zeta in F.
  assert (T' : 0 < t < 1) by lra. destruct (oblique_pos _ _ _ T' U J) as (Q1 & Q2 & Q3 & Q4 & Q5 & Q6 & Q7).
  destruct F as (KZ & M & V & TK & UQ & _ & H1 & H2 & H3 & H4 & H5 & H6 & H7 & H8 & H9 & H10 & H11 & H12 & H13 & H14 & H15).
  assert (KP : 0 < k) by lra. assert (ZK : z / k * k = z) by (field; lra).
  assert (ZK1 : 0 < z / k) by (apply Rdiv_lt_0_compat; lra). assert (ZK2 : z / k < 1) by (apply ratio_lt; lra).
  assert (ER' : rho = 3 / 4 - (1 - z / k) / 4).
  { rewrite ER, EZ. replace ((k + (j - u * j)) / 4 / k) with ((1 + (j - u * j) / k) / 4) by (field; lra). replace (j - u * j) with (k - z) by lra. field. lra. }
  assert (ET : zeta * t = (m + 2 * (t * j - t * u * j)) / 4) by (rewrite EZ; replace ((k + (j - u * j)) / 4 * t) with ((t * k + (t * j - t * u * j)) / 4) by field; lra).
  assert (EE' : eta = 1 / 2 + (m + 2 * (t * j) - 2 * (t * u * j)) / 2) by lra.
  assert (EM' : mu = (1 + z + (1 + t * u * j - u * j) - m) / 4) by lra.
  assert (EN' : nu = 1 / 2 + (z - 2 * m) / 4) by lra.
  assert (UK : u * (t * k) = u * m + u * (t * j) - u * (t * u * j)) by (rewrite TK; ring).
  assert (EO' : omega = 1 / 2 - (2 * v - m) / 2).
  { assert (X : u * (2 * omega - 1 + 2 * v - m) = 0).
    { replace (u * (2 * omega - 1 + 2 * v - m)) with (2 * u * omega - u + 2 * (u * v) - u * m) by ring. rewrite EO, V, EN'.
      replace (k * (1 - t * u)) with (k - u * (t * k)) by ring. rewrite UK, UQ.
      assert (u * (j - t * u * j) = u) by (replace (j - t * u * j) with 1 by lra; ring). lra. }
    apply Rmult_integral in X. destruct X; lra. }
  exists z, v, m, (u * j), (t * j), (t * u * j). split; auto. split; [lra|]. repeat split; lra.
Qed.
Ltac last_variation F := destruct F as (z & v & m & p & q' & w & _ & FR & -> & -> & -> & -> & -> & -> & F1 & F2 & F3 & F4 & F5 & F6 & F7 & F8 & F9 & F10 & F11 & F12 & F13 & F14 & F15);
  clear - FR F1 F2 F3 F4 F5 F6 F7 F8 F9 F10 F11 F12 F13 F14 F15; pairs.
Lemma diff_H90 a b c beta pts : 0 < a -> 0 < b -> 0 < c -> let q := - cos (beta * TORADIANS) in let s := sin (beta * TORADIANS) in
  0 < q -> 0 < s -> 2 * (c * q) < a -> a * q < c -> a * s < b -> 1 < a * q / c + a * s * (a * s) / (b * b) -> hpkot_table_90 a b c beta = Ok pts -> different pts.
Proof.
  intros A B C q s Q S X Y W Z H. cbv beta delta [hpkot_table_90] in H. def H beta0. def H zeta. def H rho. def H eta. def H mu. def H nu. def H omega. def H delta. table H. fold beta0 in q, s.
  assert (PY := sin2_cos2 beta0). unfold Rsqr in PY. fold s in PY. assert (SS : 0 < s * s) by nra.
  assert (QQ : cos beta0 = - q) by (unfold q; ring). destruct (ratios a c q s A C) as (J & T & U); auto; [rewrite QQ in PY; lra|lra|].
  assert (T1 : c * q / a < 1 / 2) by (apply ratio_lt; lra). assert (U1 : a * q / c < 1) by (apply ratio_lt; lra).
  assert (K : (1 - a * q / c) * / (s * s) < a * a / (b * b)).
  { apply (Rmult_lt_reg_r (s * s)); auto. rewrite Rmult_assoc, Rinv_l by lra. replace (a * a / (b * b) * (s * s)) with (a * s * (a * s) / (b * b)) by (field; lra). lra. }
  assert (L : a * a / (b * b) < / (s * s)).
  { apply (Rmult_lt_reg_r (s * s * (b * b))); [apply Rmult_lt_0_compat; nra|].
    replace (/ (s * s) * (s * s * (b * b))) with (b * b) by (field; lra). replace (a * a / (b * b) * (s * s * (b * b))) with (a * s * (a * s)) by (field; lra).
    assert (0 < a * s) by (apply Rmult_lt_0_compat; auto). nra. }
  assert (TU : 1 - c * q / a * (a * q / c) = s * s) by (replace (c * q / a * (a * q / c)) with (q * q) by (field; lra); rewrite QQ in PY; lra).
  set (t := c * q / a) in *. set (u := a * q / c) in *. set (j := / (s * s)) in *. set (k := a * a / (b * b)) in *.
  assert (E2 : zeta = (k + (j - u * j)) / 4) by (unfold zeta, k, j, u; fold s; rewrite QQ; unfold sq; field; lra).
  assert (ER : rho = 1 - zeta / k) by (unfold rho, k, sq; field; lra).
  assert (E3 : eta = 1 / 2 + 2 * zeta * t) by (unfold eta; rewrite QQ; unfold t; field; lra).
  assert (E4 : mu = eta / 2 + k / 4 - t * k / 2) by (unfold mu, k, t; rewrite QQ; unfold sq; field; lra).
  assert (E5 : nu = 2 * mu - zeta) by reflexivity.
  assert (E6 : 2 * u * omega = - (1 - 4 * nu + k * (1 - t * u))) by (rewrite TU; unfold omega, u, k; fold s; rewrite QQ; unfold sq; field; lra).
  assert (E7 : delta = - 1 / 4 + omega / 2 + zeta * t) by (unfold delta; rewrite QQ; unfold t; field; lra).
  pose proof (facts_3_params t u j k rho zeta eta mu nu omega delta (conj T T1) (conj U U1) J K L E2 ER E3 E4 E5 E6 E7) as F.
  clearbody rho zeta eta mu nu omega delta. clear E2 ER E3 E4 E5 E6 E7. last_variation F.
Qed.
Lemma diff_S19 a b c alpha pts : 0 < a -> 0 < b -> 0 < c -> let q := cos (alpha * TORADIANS) in let s := sin (alpha * TORADIANS) in
  0 < q -> 0 < s -> 2 * (c * q) < b -> b * q < c -> b * s < a -> 1 < b / c * q + b * b / (a * a) * (s * s) -> sc_table_19 a b c alpha = Ok pts -> different pts.
Proof.
  intros A B C q s Q S X Y W Z H. cbv beta delta [sc_table_19] in H. def H alpha0. def H zeta. def H eta. def H mu. def H nu. def H rho. def H omega. def H delta. table H. fold alpha0 in q, s.
  assert (PY := sin2_cos2 alpha0). unfold Rsqr in PY. fold s q in PY. assert (SS : 0 < s * s) by nra.
  destruct (ratios b c q s B C) as (J & T & U); auto; [lra|lra|].
  assert (T1 : c * q / b < 1 / 2) by (apply ratio_lt; lra). assert (U1 : b * q / c < 1) by (apply ratio_lt; lra).
  assert (K : (1 - b * q / c) * / (s * s) < b * b / (a * a)).
  { apply (Rmult_lt_reg_r (s * s)); auto. rewrite Rmult_assoc, Rinv_l by lra. replace (b * q / c) with (b / c * q) by (field; lra). lra. }
  assert (L : b * b / (a * a) < / (s * s)).
  { apply (Rmult_lt_reg_r (s * s * (a * a))); [apply Rmult_lt_0_compat; nra|].
    replace (/ (s * s) * (s * s * (a * a))) with (a * a) by (field; lra). replace (b * b / (a * a) * (s * s * (a * a))) with (b * s * (b * s)) by (field; lra).
    assert (0 < b * s) by (apply Rmult_lt_0_compat; auto). nra. }
  assert (TU : 1 - c * q / b * (b * q / c) = s * s) by (replace (c * q / b * (b * q / c)) with (q * q) by (field; lra); lra).
  set (t := c * q / b) in *. set (u := b * q / c) in *. set (j := / (s * s)) in *. set (k := b * b / (a * a)) in *.
  assert (E2 : zeta = (k + (j - u * j)) / 4) by (unfold zeta, k, j, u; fold s q; unfold sq; field; lra).
  assert (ER : rho = 1 - zeta / k) by (unfold rho, k, sq; field; lra).
  assert (E3 : eta = 1 / 2 + 2 * zeta * t) by (unfold eta; fold q; unfold t; field; lra).
  assert (E4 : mu = eta / 2 + k / 4 - t * k / 2) by (unfold mu, k, t; fold q; unfold sq; field; lra).
  assert (E5 : nu = 2 * mu - zeta) by reflexivity.
  assert (E6 : 2 * u * omega = - (1 - 4 * nu + k * (1 - t * u))) by (rewrite TU; unfold omega, u, k; fold s q; unfold sq; field; lra).
  assert (E7 : delta = - 1 / 4 + omega / 2 + zeta * t) by (unfold delta; fold q; unfold t; field; lra).
  pose proof (facts_3_params t u j k rho zeta eta mu nu omega delta (conj T T1) (conj U U1) J K L E2 ER E3 E4 E5 E6 E7) as F.
  clearbody rho zeta eta mu nu omega delta. clear E2 ER E3 E4 E5 E6 E7. last_variation F.
Qed.
