(* F_Voronoi.v : lemmas about lattice points and the Voronoi graph *)
From Verif Require Import Base M_Geometry M_Cell M_Voronoi.
Open Scope Z_scope.

(* ---------------- generic list facts ---------------- *)
Lemma mapM_ok {A B} (f : A -> res B) l r : mapM f l = Ok r ->
  Forall2 (fun a b => f a = Ok b) l r.
Proof.
  revert r; induction l as [|a l IH]; cbn; intros r H.
  - injection H as <-. constructor.
  - destruct (f a) eqn:E; [|discriminate]. cbn in H. destruct (mapM f l) eqn:E2; [|discriminate].
    injection H as <-. constructor; auto.
Qed.
Lemma mapM_of {A B} (f : A -> res B) l r : Forall2 (fun a b => f a = Ok b) l r -> mapM f l = Ok r.
Proof. induction 1; cbn; [reflexivity|]. rewrite H, IHForall2. reflexivity. Qed.
Lemma Forall2_len {A B} (P : A -> B -> Prop) l r : Forall2 P l r -> length l = length r.
Proof. induction 1; cbn; auto. Qed.
Lemma Forall2_weaken {A B} (P Q : A -> B -> Prop) : (forall a b, P a b -> Q a b) ->
  forall l r, Forall2 P l r -> Forall2 Q l r.
Proof. induction 2; constructor; auto. Qed.
Lemma Forall2_nth_l {A B} (P : A -> B -> Prop) l r : Forall2 P l r ->
  forall i a, nth_error l i = Some a -> exists b, nth_error r i = Some b /\ P a b.
Proof.
  induction 1; intros [|i] a; cbn; try discriminate.
  - intros E; injection E as <-. eauto.
  - apply IHForall2.
Qed.
Lemma Forall2_nth_r {A B} (P : A -> B -> Prop) l r : Forall2 P l r ->
  forall i b, nth_error r i = Some b -> exists a, nth_error l i = Some a /\ P a b.
Proof.
  induction 1; intros [|i] b; cbn; try discriminate.
  - intros E; injection E as <-. eauto.
  - apply IHForall2.
Qed.
Lemma nth_concat {A} (l : list (list A)) w : Forall (fun r => length r = w) l ->
  forall a b row, (b < w)%nat -> nth_error l a = Some row ->
  nth_error (concat l) (a * w + b) = nth_error row b.
Proof.
  induction 1 as [|r l Hr Hl IH]; intros [|a] b row Hb E; try discriminate.
  - injection E as <-. cbn. rewrite nth_error_app1 by lia. reflexivity.
  - cbn in E. cbn [concat Nat.mul]. rewrite nth_error_app2 by lia.
    replace (w + a * w + b - length r)%nat with (a * w + b)%nat by lia. apply IH; auto.
Qed.
Lemma length_concat {A} (l : list (list A)) w : Forall (fun r => length r = w) l ->
  length (concat l) = (length l * w)%nat.
Proof. induction 1; cbn; auto. rewrite app_length. lia. Qed.

Lemma zseq_length lo n : length (zseq lo n) = n.
Proof. revert lo; induction n; cbn; auto. Qed.
Lemma zseq_nth n : forall lo i, (i < n)%nat -> nth_error (zseq lo n) i = Some (lo + Z.of_nat i).
Proof.
  induction n; intros lo i H; [lia|]. destruct i; cbn [zseq nth_error].
  - f_equal; lia.
  - rewrite IHn by lia. f_equal; lia.
Qed.
Lemma arange_length r : 0 <= r -> length (arange (- r) (r + 1)) = Z.to_nat (2 * r + 1).
Proof. intros. unfold arange. rewrite zseq_length. f_equal; lia. Qed.
Lemma arange_nth r i : - r <= i <= r -> nth_error (arange (- r) (r + 1)) (Z.to_nat (i + r)) = Some i.
Proof. intros H. unfold arange. rewrite zseq_nth by lia. f_equal; lia. Qed.

(* ---------------- lattice points ---------------- *)
Definition flat (cell : mat) r1 r2 r3 rel := concat (concat (get_lattice_points_grid cell r1 r2 r3 rel)).
Definition pos_of r1 r2 r3 (v : zvec) : Z :=
  ((zx v + r1) * (2 * r2 + 1) + (zy v + r2)) * (2 * r3 + 1) + (zz v + r3).

Section Grid.
  Variables (cell : mat) (r1 r2 r3 : Z) (rel : bool).
  Hypothesis (H1 : 0 <= r1) (H2 : 0 <= r2) (H3 : 0 <= r3).
  Let N1 := Z.to_nat (2 * r1 + 1).
  Let N2 := Z.to_nat (2 * r2 + 1).
  Let N3 := Z.to_nat (2 * r3 + 1).

  Lemma grid_rows2 : Forall (fun r => length r = N2) (get_lattice_points_grid cell r1 r2 r3 rel).
  Proof.
    unfold get_lattice_points_grid, grid. rewrite map_map. apply Forall_forall. intros x Hx.
    apply in_map_iff in Hx. destruct Hx as (i & <- & _). rewrite !map_length. apply arange_length; auto.
  Qed.
  Lemma grid_rows3 : Forall (fun r => length r = N3) (concat (get_lattice_points_grid cell r1 r2 r3 rel)).
  Proof.
    apply Forall_forall. intros x Hx. apply in_concat in Hx. destruct Hx as (l & Hl & Hx).
    unfold get_lattice_points_grid, grid in Hl. rewrite map_map in Hl.
    apply in_map_iff in Hl. destruct Hl as (i & <- & _). rewrite map_map in Hx.
    apply in_map_iff in Hx. destruct Hx as (j & <- & _). rewrite !map_length. apply arange_length; auto.
  Qed.
  Lemma flat_length : length (flat cell r1 r2 r3 rel) = (N1 * N2 * N3)%nat.
  Proof.
    unfold flat. rewrite (length_concat _ N3 grid_rows3), (length_concat _ N2 grid_rows2).
    unfold get_lattice_points_grid, grid. rewrite !map_length, arange_length by auto. reflexivity.
  Qed.
  Lemma flat_nth v : - r1 <= zx v <= r1 -> - r2 <= zy v <= r2 -> - r3 <= zz v <= r3 ->
    nth_error (flat cell r1 r2 r3 rel) (Z.to_nat (pos_of r1 r2 r3 v)) = Some (to_out cell rel v).
  Proof.
    destruct v as [i j k]; unfold pos_of; cbn [Base.zx Base.zy Base.zz]. intros Hi Hj Hk. unfold flat.
    set (a := Z.to_nat (i + r1)). set (b := Z.to_nat (j + r2)). set (c := Z.to_nat (k + r3)).
    assert (Ep : Z.to_nat (((i + r1) * (2 * r2 + 1) + (j + r2)) * (2 * r3 + 1) + (k + r3))
                 = ((a * N2 + b) * N3 + c)%nat).
    { apply Nat2Z.inj. unfold a, b, c, N2, N3.
      rewrite !Nat2Z.inj_add, !Nat2Z.inj_mul, !Nat2Z.inj_add, !Nat2Z.inj_mul, !Z2Nat.id by nia. reflexivity. }
    rewrite Ep.
    set (row3 := map (to_out cell rel) (map (fun k => Zv i j k) (arange (- r3) (r3 + 1)))).
    set (row2 := map (map (to_out cell rel)) (map (fun j => map (fun k => Zv i j k) (arange (- r3) (r3 + 1))) (arange (- r2) (r2 + 1)))).
    rewrite (nth_concat _ N3 grid_rows3 _ c row3).
    - unfold row3. rewrite map_map. rewrite (map_nth_error _ _ _ (arange_nth r3 k Hk)). reflexivity.
    - unfold c, N3; lia.
    - rewrite (nth_concat _ N2 grid_rows2 a b row2).
      + unfold row2. rewrite map_map. rewrite (map_nth_error _ _ _ (arange_nth r2 j Hj)). reflexivity.
      + unfold b, N2; lia.
      + unfold get_lattice_points_grid, grid. rewrite map_map.
        rewrite (map_nth_error _ _ _ (arange_nth r1 i Hi)). reflexivity.
  Qed.
  Lemma flat_ok : get_lattice_points cell r1 r2 r3 rel = Ok (flat cell r1 r2 r3 rel).
  Proof.
    unfold get_lattice_points. fold (flat cell r1 r2 r3 rel). rewrite flat_length.
    replace (Z.of_nat (N1 * N2 * N3)) with ((2 * r1 + 1) * (2 * r2 + 1) * (2 * r3 + 1)).
    - rewrite Z.eqb_refl, orb_true_r. reflexivity.
    - unfold N1, N2, N3. rewrite !Nat2Z.inj_mul, !Z2Nat.id by lia. reflexivity.
  Qed.
End Grid.

(* every position below the length comes from exactly one triple *)
Lemma pos_surj r1 r2 r3 n : 0 <= r1 -> 0 <= r2 -> 0 <= r3 ->
  0 <= n < (2 * r1 + 1) * (2 * r2 + 1) * (2 * r3 + 1) ->
  exists v, (- r1 <= zx v <= r1 /\ - r2 <= zy v <= r2 /\ - r3 <= zz v <= r3) /\ pos_of r1 r2 r3 v = n.
Proof.
  intros H1 H2 H3 Hn. set (w2 := 2 * r2 + 1) in *. set (w3 := 2 * r3 + 1) in *.
  assert (W2 : 0 < w2) by lia. assert (W3 : 0 < w3) by lia.
  exists (Zv (n / w3 / w2 - r1) ((n / w3) mod w2 - r2) (n mod w3 - r3)).
  pose proof (Z.mod_pos_bound n w3 W3). pose proof (Z.mod_pos_bound (n / w3) w2 W2).
  assert (0 <= n / w3 < (2 * r1 + 1) * w2).
  { split; [apply Z.div_pos; lia|]. apply Z.div_lt_upper_bound; nia. }
  assert (0 <= n / w3 / w2 < 2 * r1 + 1).
  { split; [apply Z.div_pos; lia|]. apply Z.div_lt_upper_bound; nia. }
  split; [cbn [Base.zx Base.zy Base.zz]; lia|]. unfold pos_of; cbn [Base.zx Base.zy Base.zz]. fold w2 w3.
  replace (n / w3 / w2 - r1 + r1) with (n / w3 / w2) by ring.
  replace ((n / w3) mod w2 - r2 + r2) with ((n / w3) mod w2) by ring.
  replace (n mod w3 - r3 + r3) with (n mod w3) by ring.
  rewrite (Z.mul_comm (n / w3 / w2)), <- (Z.div_mod (n / w3) w2) by lia.
  rewrite Z.mul_comm, <- Z.div_mod by lia. reflexivity.
Qed.

(* ---------------- Voronoi graph ---------------- *)
Lemma zpair_eqb_true a b : zpair_eqb a b = true <-> a = b.
Proof.
  destruct a, b; unfold zpair_eqb; cbn. rewrite andb_true_iff, !Z.eqb_eq. split.
  - intros [-> ->]; reflexivity.
  - intros E; injection E; auto.
Qed.
Lemma mem_pair_true e l : mem_pair e l = true <-> In e l.
Proof.
  unfold mem_pair. rewrite existsb_exists. split.
  - intros (x & Hx & E). apply zpair_eqb_true in E. subst; auto.
  - intros H. exists e. split; auto. apply zpair_eqb_true; auto.
Qed.
Lemma mem_pair_false e l : mem_pair e l = false <-> ~ In e l.
Proof. rewrite <- mem_pair_true. destruct (mem_pair e l); split; intros; auto; discriminate || tauto. Qed.

Definition swap {A B} (e : A * B) := (snd e, fst e).
(* no edge twice, in either orientation *)
Definition simple (l : list (Z * Z)) :=
  NoDup l /\ forall e, In e l -> In (swap e) l -> e = swap e.

Lemma add_edges_spec ps : forall acc, simple acc ->
  simple (add_edges ps acc) /\
  (forall e, In e (add_edges ps acc) -> In e acc \/ In e ps) /\
  (forall e, In e acc \/ In e ps -> In e (add_edges ps acc) \/ In (swap e) (add_edges ps acc)) /\
  (forall e, In e acc -> In e (add_edges ps acc)).
Proof.
  induction ps as [|[a b] ps IH]; intros acc [ND SY]; cbn [add_edges].
  - repeat split; auto. intros e [H|[]]; auto.
  - destruct (mem_pair (a, b) acc) eqn:E1; [|destruct (mem_pair (b, a) acc) eqn:E2]; cbn [negb andb].
    + apply mem_pair_true in E1. destruct (IH acc) as (I1 & I2 & I3 & I4); [split; auto|].
      split; [auto|]. split; [|split; auto].
      * intros e He. destruct (I2 e He); cbn; auto.
      * intros e [H|[H|H]]; auto. subst e. left. auto.
    + apply mem_pair_true in E2. destruct (IH acc) as (I1 & I2 & I3 & I4); [split; auto|].
      split; [auto|]. split; [|split; auto].
      * intros e He. destruct (I2 e He); cbn; auto.
      * intros e [H|[H|H]]; auto. subst e. right. apply I4. exact E2.
    + apply mem_pair_false in E1, E2. destruct (IH (acc ++ [(a, b)])) as (I1 & I2 & I3 & I4).
      { split.
        - apply NoDup_Add with (a := (a, b)) (l := acc).
          + pose proof (Add_app (a, b) acc []) as X. rewrite app_nil_r in X. exact X.
          + split; auto.
        - intros e H H'. apply in_app_iff in H, H'. destruct H as [H|[H|[]]], H' as [H'|[H'|[]]].
          + apply SY; auto.
          + exfalso. apply E2. destruct e; unfold swap in H'; cbn in H'. injection H' as -> ->. auto.
          + exfalso. apply E2. subst e. exact H'.
          + congruence. }
      split; [auto|]. split; [|split].
      * intros e He. destruct (I2 e He) as [H|H]; cbn; auto.
        apply in_app_iff in H. destruct H as [H|[H|[]]]; auto.
      * intros e [H|[H|H]]; apply I3; auto; left; apply in_app_iff; cbn; auto.
      * intros e He. apply I4. apply in_app_iff; auto.
Qed.

(* consecutive vertices (cyclically) of a ridge that has finite vertices and touches the origin *)
Definition ridge_edge (id0 : Z) (rvs : list (list Z * (Z * Z))) (e : Z * Z) : Prop :=
  exists rv rp, In (rv, rp) rvs /\ ~ In (-1) rv /\ (fst rp = id0 \/ snd rp = id0) /\ In e (cyclic_pairs rv).

Lemma qualifies_true id0 rv rp : qualifies id0 rv rp = true <->
  ~ In (-1) rv /\ (fst rp = id0 \/ snd rp = id0).
Proof.
  unfold qualifies. rewrite andb_true_iff, negb_true_iff, orb_true_iff, !Z.eqb_eq.
  rewrite <- not_true_iff_false, existsb_exists. split; intros [H K]; split; auto.
  - intros F. apply H. exists (-1). split; auto.
  - intros (x & Hx & E). apply Z.eqb_eq in E. subst x. auto.
Qed.

Lemma collect_spec id0 rvs : forall acc, simple acc ->
  simple (collect id0 rvs acc) /\
  (forall e, In e (collect id0 rvs acc) -> In e acc \/ ridge_edge id0 rvs e) /\
  (forall e, In e acc \/ ridge_edge id0 rvs e ->
     In e (collect id0 rvs acc) \/ In (swap e) (collect id0 rvs acc)) /\
  (forall e, In e acc -> In e (collect id0 rvs acc)).
Proof.
  induction rvs as [|[rv rp] rvs IH]; intros acc S; cbn [collect].
  - repeat split; try apply S; auto. intros e [H|(rv & rp & [] & _)]; auto.
  - assert (R0 : forall e, ridge_edge id0 ((rv, rp) :: rvs) e <->
       (qualifies id0 rv rp = true /\ In e (cyclic_pairs rv)) \/ ridge_edge id0 rvs e).
    { intros e. rewrite qualifies_true. split.
      - intros (rv' & rp' & [E|E] & Q1 & Q2 & Q3); [injection E as <- <-; auto|].
        right. exists rv', rp'. auto.
      - intros [[[Q1 Q2] Q3]|(rv' & rp' & E & Q)]; [exists rv, rp|exists rv', rp']; cbn; auto. }
    destruct (qualifies id0 rv rp) eqn:Q.
    + destruct (add_edges_spec (cyclic_pairs rv) acc S) as (A1 & A2 & A3 & A4).
      destruct (IH _ A1) as (I1 & I2 & I3 & I4). split; [auto|]. split; [|split; auto].
      * intros e He. rewrite R0. destruct (I2 e He) as [H|H]; auto. destruct (A2 e H); auto.
      * intros e He. rewrite R0 in He. destruct He as [H|[[_ H]|H]]; auto.
        destruct (A3 e (or_intror H)); auto.
    + destruct (IH _ S) as (I1 & I2 & I3 & I4). split; [auto|]. split; [|split; auto].
      * intros e He. rewrite R0. destruct (I2 e He); auto.
      * intros e He. rewrite R0 in He. destruct He as [H|[[F _]|H]]; auto. discriminate.
Qed.

Lemma insert_in x y l : In y (insert_sorted x l) <-> y = x \/ In y l.
Proof.
  induction l as [|z l IH]; cbn; [intuition|].
  destruct (Z.ltb_spec x z); [cbn; intuition|]. destruct (Z.eqb_spec x z).
  - subst; cbn; intuition.
  - cbn. rewrite IH. intuition.
Qed.
Lemma unique_in y l : In y (unique l) <-> In y l.
Proof. induction l as [|x l IH]; cbn; [tauto|]. rewrite insert_in, IH. intuition. Qed.

Inductive ssorted : list Z -> Prop :=
| ss_nil : ssorted []
| ss_cons x l : (forall y, In y l -> x < y) -> ssorted l -> ssorted (x :: l).
Lemma insert_sorted_ok x l : ssorted l -> ssorted (insert_sorted x l).
Proof.
  induction 1 as [|z l Hz Hl IH]; cbn.
  - constructor; [intros y []|constructor].
  - destruct (Z.ltb_spec x z).
    + constructor; [|constructor; auto]. intros y [<-|Hy]; auto. specialize (Hz y Hy); lia.
    + destruct (Z.eqb_spec x z); [constructor; auto|]. constructor; auto.
      intros y Hy. apply insert_in in Hy. destruct Hy as [->|Hy]; [lia|auto].
Qed.
Lemma unique_sorted l : ssorted (unique l).
Proof. induction l; cbn; [constructor|apply insert_sorted_ok; auto]. Qed.
Lemma ssorted_NoDup l : ssorted l -> NoDup l.
Proof. induction 1; constructor; auto. intros F. specialize (H _ F). lia. Qed.

Lemma index_of_some x l i : index_of x l = Some i -> nth_error l i = Some x.
Proof.
  revert i; induction l as [|y l IH]; cbn; intros i H; [discriminate|].
  destruct (Z.eqb_spec x y); [injection H as <-; subst; reflexivity|].
  destruct (index_of x l); [|discriminate]. injection H as <-. cbn; auto.
Qed.
Lemma index_of_in x l : In x l -> exists i, index_of x l = Some i.
Proof.
  induction l as [|y l IH]; cbn; intros H; [destruct H|].
  destruct (Z.eqb_spec x y); [eauto|]. destruct H as [->|H]; [congruence|].
  destruct (IH H) as [i ->]. cbn; eauto.
Qed.
Lemma index_of_nth x l i : NoDup l -> nth_error l i = Some x -> index_of x l = Some i.
Proof.
  intros ND E. destruct (index_of_in x l) as [j Ej]; [eapply nth_error_In; eauto|].
  pose proof (index_of_some _ _ _ Ej) as E'. rewrite Ej. f_equal.
  eapply (proj1 (NoDup_nth_error l) ND); [apply nth_error_Some; congruence|congruence].
Qed.

(* consecutive vertices of a closed polygon *)
Definition consecutive (rv : list Z) (x y : Z) : Prop :=
  exists k, (k < length rv)%nat /\
    nth_error rv k = Some x /\ nth_error rv (S k mod length rv) = Some y.

Lemma combine_nth_error {A B} (l : list A) (l' : list B) : forall k a b,
  nth_error (combine l l') k = Some (a, b) <-> nth_error l k = Some a /\ nth_error l' k = Some b.
Proof.
  revert l'; induction l as [|x l IH]; intros [|y l'] [|k] a b; cbn; split; intros H;
    try discriminate; try (destruct H; discriminate).
  - injection H as <- <-; auto.
  - destruct H as [E1 E2]; congruence.
  - apply IH; auto.
  - apply IH; auto.
Qed.
Lemma last_nth {A} (l : list A) d : l <> [] -> nth_error l (length l - 1) = Some (last l d).
Proof.
  induction l as [|x l IH]; [congruence|]. intros _. destruct l as [|y l]; [reflexivity|].
  change (last (x :: y :: l) d) with (last (y :: l) d). rewrite <- IH by discriminate.
  cbn [length]. replace (S (S (length l)) - 1)%nat with (S (S (length l) - 1)) by lia. reflexivity.
Qed.
Lemma cyclic_pairs_spec rv x y : In (x, y) (cyclic_pairs rv) <-> consecutive rv x y.
Proof.
  unfold cyclic_pairs, consecutive. split.
  - intros H. apply In_nth_error in H. destruct H as [k H]. apply combine_nth_error in H.
    destruct H as [Hx Hy].
    assert (Hk : (k < length rv)%nat) by (apply nth_error_Some; congruence).
    destruct k as [|k]; cbn [nth_error] in Hx.
    + injection Hx as <-. exists (length rv - 1)%nat. split; [lia|]. split.
      * apply last_nth. intros ->; cbn in Hk; lia.
      * replace (S (length rv - 1)) with (length rv) by lia. rewrite Nat.mod_same by lia. auto.
    + exists k. split; [lia|]. split; auto. rewrite Nat.mod_small by lia. auto.
  - intros (k & Hk & Hx & Hy). destruct (Nat.eq_dec (S k) (length rv)) as [E|E].
    + rewrite E, Nat.mod_same in Hy by lia.
      apply nth_error_In with (n := O). apply combine_nth_error. split; auto.
      cbn. f_equal.
      assert (rv <> []) by (intros ->; cbn in Hk; lia).
      pose proof (last_nth rv 0 H) as L. replace (length rv - 1)%nat with k in L by lia. congruence.
    + rewrite Nat.mod_small in Hy by lia.
      apply nth_error_In with (n := S k). apply combine_nth_error. split; auto.
Qed.

Lemma np_index_nonneg {A} (l : list A) i a : 0 <= i ->
  np_index l i = Ok a <-> nth_error l (Z.to_nat i) = Some a.
Proof.
  intros Hi. unfold np_index. destruct (Z.ltb_spec i 0); [lia|].
  destruct (Z.ltb_spec i 0); [lia|]. cbn. destruct (Z.leb_spec (Z.of_nat (length l)) i).
  - split; [discriminate|]. intros E.
    assert (Z.to_nat i < length l)%nat by (apply nth_error_Some; congruence). lia.
  - destruct (nth_error l (Z.to_nat i)); split; congruence.
Qed.

Lemma finish_ok v es verts edges : simple es -> finish v es = Ok (verts, edges) ->
  exists ids, NoDup ids /\
    (forall x, In x ids <-> exists y, In (x, y) es \/ In (y, x) es) /\
    Forall2 (fun x p => np_index (vor_vertices v) x = Ok p) ids verts /\
    Forall2 (fun e f => nth_error ids (fst f) = Some (fst e) /\ nth_error ids (snd f) = Some (snd e)) es edges.
Proof.
  intros S H. unfold finish in H. destruct es as [|e0 es0] eqn:Ees; [discriminate|].
  rewrite <- Ees in *. set (ids := unique _) in H.
  destruct (mapM (fun e => _) es) as [edges'|] eqn:E1; [|discriminate]. cbn in H.
  destruct (mapM (np_index _) ids) as [verts'|] eqn:E2; [|discriminate]. injection H as <- <-.
  exists ids. split; [apply ssorted_NoDup, unique_sorted|]. split; [|split].
  - intros x. unfold ids. rewrite unique_in, in_flat_map. split.
    + intros ([a b] & He & [<-|[<-|[]]]); cbn; eauto.
    + intros (y & [He|He]); eexists; (split; [exact He|]); cbn; auto.
  - apply mapM_ok; auto.
  - apply mapM_ok in E1. eapply Forall2_weaken; [|exact E1]. cbn. intros [a b] [i j] H. cbn in *.
    unfold dict_index in H. destruct (index_of a ids) eqn:Ea; [|discriminate]. cbn in H.
    destruct (index_of b ids) eqn:Eb; [|discriminate]. cbn in H. injection H as <- <-.
    split; apply index_of_some; auto.
Qed.

Lemma finish_total v es : es <> [] ->
  (forall x y, In (x, y) es -> (exists p, np_index (vor_vertices v) x = Ok p)
                            /\ (exists p, np_index (vor_vertices v) y = Ok p)) ->
  exists out, finish v es = Ok out.
Proof.
  intros NE H. unfold finish. destruct es as [|e0 es0] eqn:Ees; [congruence|].
  rewrite <- Ees in *. set (ids := unique _).
  assert (Hi : forall e, In e es -> In (fst e) ids /\ In (snd e) ids).
  { intros e He. unfold ids. rewrite !unique_in, !in_flat_map. split; exists e; cbn; auto. }
  assert (M1 : exists r, mapM (fun e => do i <- dict_index (fst e) ids;
                                 do j <- dict_index (snd e) ids; Ok (i, j)) es = Ok r).
  { clear - Hi. clearbody ids. induction es as [|e es IH]; [cbn; eauto|]. cbn [mapM].
    destruct (Hi e) as [A B]; [cbn; auto|]. unfold dict_index at 1 2.
    destruct (index_of_in _ _ A) as [i ->], (index_of_in _ _ B) as [j ->]. cbn.
    destruct IH as [r E]; [intros; apply Hi; cbn; auto|]. rewrite E. cbn. eauto. }
  assert (M2 : exists r, mapM (np_index (vor_vertices v)) ids = Ok r).
  { assert (K : forall x, In x ids -> exists p, np_index (vor_vertices v) x = Ok p).
    { intros x Hx. unfold ids in Hx. rewrite unique_in, in_flat_map in Hx.
      destruct Hx as ([a b] & He & [<-|[<-|[]]]); cbn; apply (H _ _ He). }
    clear - K. clearbody ids. induction ids as [|x ids IH]; [cbn; eauto|]. cbn [mapM].
    destruct (K x) as [p ->]; [cbn; auto|]. cbn.
    destruct IH as [r ->]; [intros; apply K; cbn; auto|]. cbn; eauto. }
  destruct M1 as [r1 ->], M2 as [r2 ->]. cbn; eauto.
Qed.
