(* F_Primitive.v : facts about M_Primitive *)
From Verif Require Import Base M_Strings M_Dict M_Numerical M_Geometry M_Atoms T_Tables M_Spglib M_Conventional M_Primitive
  F_Geometry F_Niggli F_Voronoi F_Strings F_Atoms F_Conventional.
From Coq Require Import Sorted.
Open Scope string_scope.
Open Scope list_scope.
Open Scope R_scope.

(* ---------------- rounding ---------------- *)
Lemma int_part_bounds x : IZR (Int_part x) <= x < IZR (Int_part x) + 1.
Proof. destruct (base_Int_part x). lra. Qed.
Lemma int_part_unique x n : IZR n <= x < IZR n + 1 -> Int_part x = n.
Proof.
  intros H. pose proof (int_part_bounds x) as B.
  assert (IZR n < IZR (Int_part x + 1)) by (rewrite plus_IZR; lra).
  assert (IZR (Int_part x) < IZR (n + 1)) by (rewrite plus_IZR; lra).
  apply lt_IZR in H0, H1. lia.
Qed.
Lemma round_near x : Rabs (IZR (round_half_even x) - x) <= / 2.
Proof.
  unfold round_half_even. pose proof (int_part_bounds x) as B.
  destruct (Rltb_spec (x - IZR (Int_part x)) (/ 2)); [apply Rabs_le; lra|].
  destruct (Rltb_spec (/ 2) (x - IZR (Int_part x))); [rewrite plus_IZR; apply Rabs_le; lra|].
  destruct (Z.even (Int_part x)); [apply Rabs_le; lra|rewrite plus_IZR; apply Rabs_le; lra].
Qed.
Lemma round_unique x n : Rabs (IZR n - x) < / 2 -> round_half_even x = n.
Proof.
  intros H. pose proof (round_near x) as R.
  assert (A : Rabs (IZR (round_half_even x - n)) < 1).
  { rewrite minus_IZR. replace (IZR (round_half_even x) - IZR n) with ((IZR (round_half_even x) - x) - (IZR n - x)) by ring.
    eapply Rle_lt_trans; [apply Rabs_triang|]. rewrite Rabs_Ropp. lra. }
  rewrite <- abs_IZR in A. apply lt_IZR in A. lia.
Qed.
Lemma round_int n : round_half_even (IZR n) = n.
Proof. apply round_unique. replace (IZR n - IZR n) with 0 by ring. rewrite Rabs_R0. lra. Qed.
Lemma round8_near x : Rabs (round8 x - x) <= / 200000000.
Proof.
  unfold round8. pose proof (round_near (x * 100000000)) as R.
  replace (IZR (round_half_even (x * 100000000)) / 100000000 - x) with
    ((IZR (round_half_even (x * 100000000)) - x * 100000000) * / 100000000) by field.
  rewrite Rabs_mult, (Rabs_right (/ 100000000)) by lra. lra.
Qed.
Lemma mod1_bounds x : 0 <= mod1 x < 1.
Proof. unfold mod1. pose proof (int_part_bounds x). lra. Qed.
Lemma mod1_small x : 0 <= x < 1 -> mod1 x = x.
Proof. intros H. unfold mod1. rewrite (int_part_unique x 0) by lra. lra. Qed.
Lemma normal_coord x : exists n : Z, 0 <= mod1 (mod1 (round8 x)) < 1 /\
  Rabs (mod1 (mod1 (round8 x)) + IZR n - x) <= / 200000000.
Proof.
  rewrite (mod1_small (mod1 _)) by apply mod1_bounds. exists (Int_part (round8 x)). split; [apply mod1_bounds|].
  unfold mod1. replace (round8 x - IZR (Int_part (round8 x)) + IZR (Int_part (round8 x)) - x) with (round8 x - x) by ring.
  apply round8_near.
Qed.
(* the coordinates of v are at most r in absolute value *)
Definition coords_le (r : R) (v : vec) : Prop := Rabs (vx v) <= r /\ Rabs (vy v) <= r /\ Rabs (vz v) <= r.
Definition in_unit_cell (v : vec) : Prop := 0 <= vx v < 1 /\ 0 <= vy v < 1 /\ 0 <= vz v < 1.
Lemma normal_spec p : in_unit_cell (normal_position p) /\
  exists n, coords_le (/ 200000000) (vsub p (vadd (normal_position p) (ofZv n))).
Proof.
  destruct p as [x y z]. destruct (normal_coord x) as (a & A1 & A2), (normal_coord y) as (b & B1 & B2), (normal_coord z) as (c & C1 & C2).
  split; [unfold in_unit_cell, normal_position, vmap; cbn [vx vy vz]; auto|].
  exists (Zv a b c). unfold coords_le, normal_position, vmap, vsub, vadd, ofZv. cbn [vx vy vz zx zy zz].
  rewrite (Rabs_minus_sym x), (Rabs_minus_sym y), (Rabs_minus_sym z). auto.
Qed.
Lemma coords_norm r v : 0 <= r -> coords_le r v -> norm v <= 2 * r.
Proof.
  intros H (X & Y & Z). unfold norm. rewrite <- (sqrt_square (2 * r)) by lra. apply sqrt_le_1_alt.
  unfold dot.
  assert (S : forall t, Rabs t <= r -> t * t <= r * r).
  { intros t T. replace (t * t) with (Rabs t * Rabs t) by (unfold Rabs; destruct (Rcase_abs t); ring).
    apply Rmult_le_compat; auto using Rabs_pos. }
  pose proof (S _ X); pose proof (S _ Y); pose proof (S _ Z); nra.
Qed.
Lemma norm_triangle u v : norm (vadd u v) <= norm u + norm v.
Proof.
  pose proof (norm_nonneg u). pose proof (norm_nonneg v). apply Rsqr_incr_0_var; [|lra].
  unfold Rsqr. pose proof (cauchy_schwarz u v) as C.
  assert (N : norm (vadd u v) * norm (vadd u v) = norm u * norm u + 2 * dot u v + norm v * norm v).
  { pose proof (norm_sqr (vadd u v)). pose proof (norm_sqr u). pose proof (norm_sqr v).
    assert (dot (vadd u v) (vadd u v) = dot u u + 2 * dot u v + dot v v) by vring. lra. }
  rewrite N. assert (dot u v <= norm u * norm v) by (eapply Rle_trans; [apply Rle_abs|exact C]). lra.
Qed.

(* ---------------- the selection loop ---------------- *)
Lemma same_refl tol p : 0 <= tol -> same_atoms tol p p = true.
Proof.
  intros H. unfold same_atoms. apply Rleb_true. replace (vsub p p) with vzero by vring.
  rewrite (proj2 (norm_zero_iff vzero)); auto.
Qed.
Lemma same_sym tol p q : same_atoms tol p q = same_atoms tol q p.
Proof. unfold same_atoms. replace (vsub q p) with (vneg (vsub p q)) by vring. rewrite norm_neg. reflexivity. Qed.

Lemma filter_len {A} (f : A -> bool) l : (length (filter f l) <= length l)%nat.
Proof. induction l; cbn; auto. destruct (f a); cbn; lia. Qed.

Lemma loop_in tol fuel : forall av i, In i (unique_loop tol fuel av) -> In i (map fst av).
Proof.
  induction fuel as [|fuel IH]; intros [|[j p] av] i H; cbn in H; try contradiction.
  destruct H as [->|H]; [left; auto|]. right. apply IH in H. apply in_map_iff in H. destruct H as (x & <- & H).
  apply filter_In in H. apply in_map. tauto.
Qed.
Lemma sorted_filter (f : nat * vec -> bool) av : StronglySorted lt (map fst av) -> StronglySorted lt (map fst (filter f av)).
Proof.
  induction av as [|x av IH]; cbn; intros H; auto. inversion H as [|? ? S F]; subst. destruct (f x); cbn; auto.
  constructor; auto. rewrite Forall_forall in *. intros y Y. apply F. apply in_map_iff in Y. destruct Y as (z & <- & Z).
  apply filter_In in Z. apply in_map. tauto.
Qed.
Lemma loop_sorted tol fuel : forall av, StronglySorted lt (map fst av) -> StronglySorted lt (unique_loop tol fuel av).
Proof.
  induction fuel as [|fuel IH]; intros [|[j p] av] H; cbn; try constructor.
  - apply IH, sorted_filter. inversion H; auto.
  - inversion H as [|? ? S F]; subst. rewrite Forall_forall in *. intros i I. apply loop_in in I.
    apply F. apply in_map_iff in I. destruct I as (x & <- & I). apply filter_In in I. apply in_map. tauto.
Qed.
(* every available atom is the same as a selected one, which comes first *)
Lemma loop_cover tol fuel : 0 <= tol -> forall av, (length av <= fuel)%nat -> StronglySorted lt (map fst av) ->
  forall k q, In (k, q) av -> exists i p, In (i, p) av /\ In i (unique_loop tol fuel av) /\ (i <= k)%nat /\ same_atoms tol p q = true.
Proof.
  intros T. induction fuel as [|fuel IH]; intros [|[j p] av] L S k q K; cbn in *; try contradiction; try lia.
  inversion S as [|? ? S' F]; subst. destruct K as [E|K].
  - injection E as <- <-. exists j, p. split; auto. split; auto. split; auto. apply same_refl; auto.
  - destruct (same_atoms tol p q) eqn:SM.
    + exists j, p. split; auto. split; auto. split; auto. rewrite Forall_forall in F.
      apply Nat.lt_le_incl, F. apply (in_map fst) in K. exact K.
    + destruct (IH (filter (fun jq => negb (same_atoms tol p (snd jq))) av)) with (k := k) (q := q) as (i & r & A & B & C & D).
      * pose proof (filter_len (fun jq => negb (same_atoms tol p (snd jq))) av). lia.
      * apply sorted_filter; auto.
      * apply filter_In. split; auto. cbn. rewrite SM. auto.
      * exists i, r. split; [right; apply filter_In in A; tauto|]. auto.
Qed.
(* two selected atoms are never the same *)
Lemma loop_apart tol fuel : forall av, NoDup (map fst av) ->
  forall i j p q, In (i, p) av -> In (j, q) av -> In i (unique_loop tol fuel av) -> In j (unique_loop tol fuel av) ->
  i <> j -> same_atoms tol p q = false.
Proof.
  induction fuel as [|fuel IH]; intros [|[k r] av] ND i j p q I J SI SJ NE; cbn in SI, SJ; try contradiction.
  cbn [map fst] in ND. inversion ND as [|? ? NI ND']; subst.
  assert (UN : forall s, In (k, s) ((k, r) :: av) -> s = r).
  { intros s [E|E]; [congruence|]. exfalso. apply NI. apply (in_map fst) in E. exact E. }
  set (av' := filter (fun jq => negb (same_atoms tol r (snd jq))) av) in *.
  assert (ND2 : NoDup (map fst av')).
  { unfold av'. clear - ND'. induction av as [|x av IH]; cbn in *; [constructor|]. inversion ND'; subst.
    destruct (negb _); cbn; auto. constructor; auto. intros H. apply H1. apply in_map_iff in H. destruct H as (y & <- & Y).
    apply filter_In in Y. apply in_map. tauto. }
  assert (INJ : forall m s, In (m, s) ((k, r) :: av) -> In m (unique_loop tol fuel av') -> In (m, s) av').
  { intros m s M SM. pose proof (loop_in _ _ _ _ SM) as X. apply in_map_iff in X. destruct X as ([m' s'] & E & X). cbn in E. subst m'.
    assert (s = s'); [|subst; auto]. unfold av' in X. apply filter_In in X. destruct X as (X & _).
    destruct M as [E|M]; [injection E as -> ->; exfalso; apply NI; apply (in_map fst) in X; exact X|].
    clear - ND' M X. induction av as [|y av IH]; [destruct M|]. cbn in ND'. inversion ND'; subst.
    destruct M as [->|M], X as [E|X]; try congruence; auto;
    exfalso; [apply H1; apply (in_map fst) in X; exact X|subst y; apply H1; apply (in_map fst) in M; exact M]. }
  assert (OUT : forall m s, In (m, s) av' -> same_atoms tol r s = false).
  { intros m s M. unfold av' in M. apply filter_In in M. destruct M as (_ & M). cbn in M. destruct (same_atoms tol r s); auto. }
  destruct SI as [->|SI], SJ as [->|SJ]; try congruence.
  - rewrite (UN p I). eapply OUT, INJ; eauto.
  - rewrite (UN q J). rewrite same_sym. eapply OUT, INJ; eauto.
  - eapply IH; [exact ND2| | |exact SI|exact SJ|exact NE]; auto.
Qed.
(* if being the same is transitive, the classes all have the size rep *)
Lemma filter_split {A} (f : A -> bool) l : length l = (length (filter f l) + length (filter (fun x => negb (f x)) l))%nat.
Proof. induction l; cbn; auto. destruct (f a); cbn; lia. Qed.
Lemma filter_sub {A} (f g : A -> bool) l : (forall x, In x l -> g x = true -> f x = true) ->
  filter g (filter f l) = filter g l.
Proof.
  induction l as [|a l IH]; cbn; intros H; auto. destruct (f a) eqn:F; cbn; rewrite IH by auto.
  - reflexivity.
  - destruct (g a) eqn:G; auto. rewrite H in F; auto. discriminate.
Qed.
Lemma loop_count tol rep fuel : 0 <= tol -> forall av, (length av <= fuel)%nat ->
  (forall x y z, In x av -> In y av -> In z av -> same_atoms tol (snd x) (snd y) = true -> same_atoms tol (snd y) (snd z) = true ->
     same_atoms tol (snd x) (snd z) = true) ->
  (forall x, In x av -> length (filter (fun y => same_atoms tol (snd x) (snd y)) av) = rep) ->
  length av = (rep * length (unique_loop tol fuel av))%nat.
Proof.
  intros T. induction fuel as [|fuel IH]; intros [|[j p] av] L TR C; cbn [length unique_loop] in *; try lia.
  set (f := fun jq : nat * vec => negb (same_atoms tol p (snd jq))).
  pose proof (C (j, p) (or_introl eq_refl)) as C0. cbn [snd filter] in C0. rewrite same_refl in C0 by auto. cbn [length] in C0.
  pose proof (filter_split f av) as SP. 
  assert (E : length (filter (fun x => negb (f x)) av) = length (filter (fun y => same_atoms tol p (snd y)) av)).
  { f_equal. apply filter_ext. intros x. unfold f. apply negb_involutive. }
  rewrite (IH (filter f av)) in SP.
  - lia.
  - pose proof (filter_len f av). lia.
  - intros x y z X Y Z. apply filter_In in X, Y, Z. apply TR; right; tauto.
  - intros x X. apply filter_In in X. destruct X as (X & FX). rewrite filter_sub.
    + rewrite <- (C x (or_intror X)). cbn [filter snd]. destruct (same_atoms tol (snd x) p) eqn:SX; auto.
      exfalso. unfold f in FX. rewrite same_sym, SX in FX. discriminate.
    + intros y Y G. unfold f in *. destruct (same_atoms tol p (snd y)) eqn:SY; auto.
      exfalso. apply negb_true_iff in FX.
      enough (Q : same_atoms tol p (snd x) = true) by congruence.
      apply (TR (j, p) y x); cbn [snd]; auto; [left; auto|right; auto|right; auto|]. rewrite same_sym. exact G.
Qed.
Lemma enumerate_fst {A} (l : list A) : map fst (enumerate l) = seq 0 (length l).
Proof.
  unfold enumerate. assert (G : forall (l : list A) n, map fst (combine (seq n (length l)) l) = seq n (length l)).
  { clear l. induction l as [|a l IH]; intros n; cbn; auto. f_equal. apply IH. }
  apply G.
Qed.
Lemma enumerate_snd {A} (l : list A) : map snd (enumerate l) = l.
Proof.
  unfold enumerate. assert (G : forall (l : list A) n, map snd (combine (seq n (length l)) l) = l).
  { clear l. induction l as [|a l IH]; intros n; cbn; auto. f_equal. apply IH. }
  apply G.
Qed.
Lemma enumerate_in {A} (l : list A) i x : In (i, x) (enumerate l) <-> nth_error l i = Some x.
Proof.
  unfold enumerate. assert (G : forall (l : list A) n i x, In (i, x) (combine (seq n (length l)) l) <-> (n <= i)%nat /\ nth_error l (i - n) = Some x).
  { clear. induction l as [|a l IH]; intros n i x; cbn.
    - split; [tauto|]. intros (_ & H). destruct (i - n)%nat; discriminate.
    - rewrite IH. split.
      + intros [E|(H & E)]; [injection E as -> ->; rewrite Nat.sub_diag; split; auto|].
        split; [lia|]. replace (i - n)%nat with (S (i - S n)) by lia. exact E.
      + intros (H & E). destruct (Nat.eq_dec i n) as [->|NE].
        * rewrite Nat.sub_diag in E. injection E as ->. auto.
        * right. split; [lia|]. replace (i - n)%nat with (S (i - S n)) in E by lia. exact E. }
  rewrite G, Nat.sub_0_r. split; [tauto|]. split; [lia|auto].
Qed.
Lemma seq_sorted m : forall n, StronglySorted lt (seq n m).
Proof.
  induction m as [|m IH]; intros n; cbn; constructor; auto. rewrite Forall_forall. intros x X. apply in_seq in X. lia.
Qed.
Lemma at_indices_spec {A} (l : list A) idx : (forall i, In i idx -> (i < length l)%nat) ->
  Forall2 (fun i x => nth_error l i = Some x) idx (at_indices l idx).
Proof.
  unfold at_indices. induction idx as [|i idx IH]; intros H; cbn; [constructor|].
  destruct (nth_error l i) eqn:E; cbn.
  - constructor; auto. apply IH. intros; apply H; right; auto.
  - exfalso. apply nth_error_None in E. specialize (H i (or_introl eq_refl)). lia.
Qed.

(* everything about _get_unique *)
Lemma get_unique_spec positions types r tol ps ts : 0 <= tol -> get_unique positions types r tol = Ok (ps, ts) ->
  length types = length positions /\
  exists idx, StronglySorted lt idx /\
    Forall2 (fun i p => exists q, nth_error positions i = Some q /\ p = normal_position q) idx ps /\
    Forall2 (fun i t => nth_error types i = Some t) idx ts /\
    (forall i j p q, In i idx -> In j idx -> i <> j -> nth_error positions i = Some p -> nth_error positions j = Some q ->
       tol < norm (vsub (normal_position p) (normal_position q))) /\
    (forall k q, nth_error positions k = Some q -> exists i p, In i idx /\ (i <= k)%nat /\ nth_error positions i = Some p /\
       norm (vsub (normal_position p) (normal_position q)) <= tol) /\
    (forall p, In p positions -> n_equiv tol (map normal_position positions) (normal_position p) = round_half_even r) /\
    ((forall x y z, In x positions -> In y positions -> In z positions ->
        norm (vsub (normal_position x) (normal_position y)) <= tol -> norm (vsub (normal_position y) (normal_position z)) <= tol ->
        norm (vsub (normal_position x) (normal_position z)) <= tol) ->
     Z.of_nat (length positions) = (round_half_even r * Z.of_nat (length ps))%Z).
Proof.
  intros T H. unfold get_unique in H. cbv zeta in H.
  remember (map normal_position positions) as nps eqn:EN.
  destruct (forallb (fun p => (n_equiv tol nps p =? round_half_even r)%Z) nps) eqn:F; [|discriminate]. cbn [negb] in H.
  assert (NL : length nps = length positions) by (rewrite EN; apply map_length).
  assert (H' : (if negb (Nat.eqb (length types) (length nps)) then Err IndexError
                else Ok (at_indices nps (unique_loop tol (length nps) (enumerate nps)),
                         at_indices types (unique_loop tol (length nps) (enumerate nps)))) = Ok (ps, ts) /\ nps <> []).
  { destruct nps as [|n0 l]; [discriminate|]. split; [exact H|discriminate]. }
  clear H. destruct H' as (H & NN).
  destruct (Nat.eqb_spec (length types) (length nps)) as [LT|]; [|discriminate]. cbn [negb] in H.
  injection H as <- <-. split; [congruence|].
  set (idx := unique_loop tol (length nps) (enumerate nps)).
  assert (LE : length (enumerate nps) = length nps) by (rewrite <- (map_length snd), enumerate_snd; auto).
  assert (SS : StronglySorted lt (map fst (enumerate nps))) by (rewrite enumerate_fst; apply seq_sorted).
  assert (BD : forall i, In i idx -> (i < length nps)%nat).
  { intros i I. apply loop_in in I. rewrite enumerate_fst in I. apply in_seq in I. lia. }
  assert (NTH : forall i p, nth_error positions i = Some p -> nth_error nps i = Some (normal_position p)).
  { intros i p E. rewrite EN, nth_error_map, E. reflexivity. }
  assert (NTH' : forall i p, nth_error nps i = Some p -> exists q, nth_error positions i = Some q /\ p = normal_position q).
  { intros i p E. rewrite EN, nth_error_map in E. destruct (nth_error positions i); [|discriminate].
    injection E as <-. eauto. }
  exists idx. split; [apply loop_sorted; auto|].
  split.
  { pose proof (at_indices_spec nps idx BD) as A. eapply Forall2_weaken; [|exact A]. intros i p E. apply NTH'; auto. }
  split; [apply at_indices_spec; intros i I; rewrite LT; auto|].
  split.
  { intros i j p q I J NE P Q. pose proof (loop_apart tol (length nps) (enumerate nps)) as A.
    assert (ND : NoDup (map fst (enumerate nps))) by (rewrite enumerate_fst; apply seq_NoDup).
    specialize (A ND i j (normal_position p) (normal_position q)).
    rewrite !enumerate_in in A. specialize (A (NTH _ _ P) (NTH _ _ Q) I J NE).
    unfold same_atoms in A. apply Rleb_false in A. exact A. }
  split.
  { intros k q K. destruct (loop_cover tol (length nps) T (enumerate nps)) with (k := k) (q := normal_position q) as (i & p & A & B & C & D); auto; try lia.
    - apply enumerate_in; auto.
    - apply enumerate_in in A. destruct (NTH' _ _ A) as (p0 & P0 & ->). exists i, p0.
      unfold same_atoms in D. apply Rleb_true in D. auto. }
  rewrite forallb_forall in F.
  assert (CNT : forall p, In p positions -> n_equiv tol nps (normal_position p) = round_half_even r).
  { intros p P. apply Z.eqb_eq. apply F. rewrite EN. apply in_map; auto. }
  split; [exact CNT|].
  intros TR.
  assert (LI : length (at_indices nps idx) = length idx).
  { symmetry. eapply Forall2_len. apply (at_indices_spec nps idx BD). }
  rewrite LI.
  assert (IN : forall x, In x (enumerate nps) -> exists q, In q positions /\ snd x = normal_position q).
  { intros [i x] X. apply enumerate_in in X. destruct (NTH' _ _ X) as (q & Q & ->). exists q. split; auto. eapply nth_error_In; eauto. }
  assert (RP : (0 <= round_half_even r)%Z).
  { assert (exists p, In p positions) as (p & P).
    { destruct positions as [|p l]; [cbn in EN; congruence|]. exists p; left; auto. }
    rewrite <- (CNT p P). unfold n_equiv. lia. }
  pose proof (loop_count tol (Z.to_nat (round_half_even r)) (length nps) T (enumerate nps)) as LC.
  rewrite LE in LC. rewrite <- NL, LC; auto.
  - fold idx. rewrite Nat2Z.inj_mul, Z2Nat.id by auto. reflexivity.
  - intros x y z X Y Z. destruct (IN _ X) as (x' & X' & ->), (IN _ Y) as (y' & Y' & ->), (IN _ Z) as (z' & Z' & ->).
    unfold same_atoms. rewrite !Rleb_true. apply TR; auto.
  - intros x X. destruct (IN _ X) as (x' & X' & ->). rewrite <- (CNT _ X'). unfold n_equiv. rewrite Nat2Z.id.
    rewrite <- (enumerate_snd nps) at 2. clear. induction (enumerate nps) as [|y l IHl]; cbn; auto.
    destruct (same_atoms tol (normal_position x') (snd y)); cbn; congruence.
Qed.
