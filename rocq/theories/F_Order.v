(* F_Order.v : lemmas for C79: lists whose elements are taken in another order *)
From Coq Require Import Permutation.
From Verif Require Import Base M_Numerical M_Geometry M_Cell M_Niggli M_Strings M_Dict T_Atoms T_Tables M_Atoms M_Spglib M_Conventional M_Primitive
  M_Variation M_Path F_Strings F_Geometry F_Atoms F_Conventional F_Voronoi S_Crystal F_Primitive P_Atoms P_Conventional P_Primitive P_Variation P_SpglibData.
Open Scope string_scope.
Open Scope list_scope.
Open Scope R_scope.

(* ---- specification ---- *)
(* the elements of l, in the order given by their numbers *)
Definition pick {A} (s : list nat) (l : list A) : list A :=
  flat_map (fun i => match nth_error l i with Some x => [x] | None => [] end) s.
(* s puts the numbers 0, ..., n - 1 in some order *)
Definition order (s : list nat) (n : nat) : Prop := Permutation s (seq 0 n).
(* the same atoms in another order: every attribute is put in that order *)
Definition reorder_value (s : list nat) (v : pyval) : pyval := match v with PList l => PList (pick s l) | _ => v end.
Definition reorder (s : list nat) (atoms : atoms_dict) : atoms_dict := map (fun kv => (fst kv, reorder_value s (snd kv))) atoms.
(* every attribute is a list with one entry per atom *)
Definition table (n : nat) (atoms : atoms_dict) : Prop :=
  NoDup (keys atoms) /\ forall k v, In (k, v) atoms -> exists l, v = PList l /\ length l = n.
(* the same positions with the same types, in another order *)
Definition shuffled (ps : list vec) (ts : list Z) (ps' : list vec) (ts' : list Z) : Prop :=
  length ps = length ts /\ exists s, order s (length ps) /\ ps' = pick s ps /\ ts' = pick s ts.

(* ---- pick ---- *)
Lemma F2_len {A B} (R : A -> B -> Prop) l r : Forall2 R l r -> length l = length r.
Proof. induction 1; cbn; auto. Qed.
Lemma pick_seq {A} (l : list A) : pick (seq 0 (length l)) l = l.
Proof.
  assert (G : forall pre, pick (seq (length pre) (length l)) (pre ++ l) = l).
  { induction l as [|x l IH]; intros pre; [reflexivity|]. cbn [length seq]. unfold pick. cbn [flat_map].
    rewrite nth_error_app2, Nat.sub_diag by lia. cbn [nth_error app]. f_equal.
    specialize (IH (pre ++ [x])). rewrite <- app_assoc in IH. cbn [app] in IH. rewrite app_length in IH. cbn [length] in IH.
    replace (length pre + 1)%nat with (S (length pre)) in IH by lia. exact IH. }
  exact (G []).
Qed.
Lemma pick_perm {A} s n (l : list A) : order s n -> length l = n -> Permutation (pick s l) l.
Proof.
  intros O L. rewrite <- (pick_seq l) at 2. unfold pick. subst n. apply Permutation_flat_map. exact O.
Qed.
Lemma pick_length {A} s n (l : list A) : order s n -> length l = n -> length (pick s l) = n.
Proof. intros O L. rewrite (Permutation_length (pick_perm s n l O L)). exact L. Qed.
Lemma pick_in {A} s n (l : list A) x : order s n -> length l = n -> (In x (pick s l) <-> In x l).
Proof.
  intros O L. pose proof (pick_perm s n l O L) as P. split; apply Permutation_in; [exact P|apply Permutation_sym; exact P].
Qed.
Lemma pick_map {A B} (f : A -> B) s l : pick s (map f l) = map f (pick s l).
Proof.
  unfold pick. induction s as [|i s IH]; [reflexivity|]. cbn [flat_map]. rewrite map_app, <- IH. f_equal.
  rewrite nth_error_map. destruct (nth_error l i); reflexivity.
Qed.
Lemma pick_F2 {A B} (R : A -> B -> Prop) s l r : Forall2 R l r -> Forall2 R (pick s l) (pick s r).
Proof.
  intros F. unfold pick. induction s as [|i s IH]; cbn [flat_map]; [constructor|]. apply Forall2_app; auto.
  clear IH. revert i. induction F as [|x y l r X F IH]; intros i; [destruct i; constructor|].
  destruct i as [|i]; cbn [nth_error]; [repeat constructor; auto|apply IH].
Qed.
Lemma pick_cons {A} i s (l : list A) : pick (i :: s) l = match nth_error l i with Some x => [x] | None => [] end ++ pick s l.
Proof. reflexivity. Qed.
Lemma pick_app {A} s t (l : list A) : pick (s ++ t) l = pick s l ++ pick t l.
Proof. unfold pick. apply flat_map_app. Qed.
Lemma pick_pick {A} t s (l : list A) : (forall i, In i s -> (i < length l)%nat) -> pick t (pick s l) = pick (pick t s) l.
Proof.
  intros H. assert (N : forall j, nth_error (pick s l) j = match nth_error s j with Some i => nth_error l i | None => None end).
  { unfold pick. induction s as [|i s IH]; intros j; [destruct j; reflexivity|]. cbn [flat_map].
    destruct (nth_error l i) as [x|] eqn:E.
    - destruct j as [|j]; cbn [nth_error app]; [auto|]. apply IH. intros; apply H; right; auto.
    - apply nth_error_None in E. specialize (H i (or_introl eq_refl)). lia. }
  induction t as [|j t IH]; [reflexivity|]. rewrite !(pick_cons j t), pick_app, IH, N. f_equal.
  destruct (nth_error s j) as [i|]; [|reflexivity]. rewrite pick_cons. cbn [pick flat_map]. rewrite app_nil_r. reflexivity.
Qed.
Lemma order_lt s n i : order s n -> In i s -> (i < n)%nat.
Proof. intros O I. apply (Permutation_in _ O) in I. apply in_seq in I. lia. Qed.
Lemma order_undo s n : order s n -> exists t, order t n /\ forall A (l : list A), length l = n -> pick t (pick s l) = l.
Proof.
  intros O.
  assert (G : forall m, incl m s -> exists t, Forall2 (fun j i => nth_error s j = Some i) t m).
  { induction m as [|i m IH]; intros I; [exists []; constructor|]. destruct IH as (t & T); [intros x X; apply I; right; auto|].
    destruct (In_nth_error s i) as (j & J); [apply I; left; auto|]. exists (j :: t). constructor; auto. }
  destruct (G (seq 0 n)) as (t & T). { intros x X. apply (Permutation_in _ (Permutation_sym O)). exact X. }
  assert (GP : forall t m, Forall2 (fun j i => nth_error s j = Some i) t m -> pick t s = m /\ (NoDup m -> NoDup t) /\
            forall j, In j t -> exists i, In i m /\ nth_error s j = Some i).
  { clear. intros t m F. induction F as [|j i t m J F (IP & IN & II)]; [split; [reflexivity|split; [constructor|intros ? []]]|].
    split; [|split].
    - rewrite pick_cons, J, IP. reflexivity.
    - intros N. inversion N as [|? ? NI N']; subst. constructor; auto. intros X. destruct (II _ X) as (i' & I1 & I2).
      apply NI. congruence.
    - intros j' [<-|X]; [exists i; split; [left|]; auto|]. destruct (II _ X) as (i' & I1 & I2). exists i'. split; [right|]; auto. }
  destruct (GP _ _ T) as (P & ND & LT). clear GP G. specialize (ND (seq_NoDup n 0)).
  assert (LS : length s = n) by (rewrite (Permutation_length O); apply seq_length).
  assert (LN : length t = n) by (rewrite (F2_len _ _ _ T); apply seq_length).
  exists t. split.
  - apply NoDup_Permutation_bis; auto.
    + rewrite seq_length, LN. apply Nat.le_refl.
    + intros j J. apply in_seq. split; [lia|]. cbn [plus]. rewrite <- LS. apply nth_error_Some. destruct (LT _ J) as (i & _ & E). congruence.
  - intros A l L. rewrite pick_pick by (intros i I; rewrite L; eapply order_lt; eauto). rewrite P, <- L. apply pick_seq.
Qed.
Lemma order_id n : order (seq 0 n) n.
Proof. apply Permutation_refl. Qed.

(* ---- dictionaries ---- *)
Lemma reorder_keys s atoms : keys (reorder s atoms) = keys atoms.
Proof. unfold reorder, keys. rewrite map_map. reflexivity. Qed.
Lemma reorder_lookup s atoms k : lookup k (reorder s atoms) = option_map (reorder_value s) (lookup k atoms).
Proof.
  induction atoms as [|[k' v] atoms IH]; [reflexivity|]. cbn [reorder map lookup fst snd]. destruct (String.eqb k k'); [reflexivity|exact IH].
Qed.
Lemma table_lookup n atoms k v : table n atoms -> lookup k atoms = Some v -> exists l, v = PList l /\ length l = n.
Proof. intros (_ & T) L. apply (T k). apply lookup_pair. exact L. Qed.
Lemma reorder_table s n atoms : order s n -> table n atoms -> table n (reorder s atoms).
Proof.
  intros O (ND & T). split; [rewrite reorder_keys; exact ND|]. intros k v I. unfold reorder in I. apply in_map_iff in I.
  destruct I as ([k' w] & E & I). cbn [fst snd] in E. injection E as <- <-. destruct (T _ _ I) as (l & -> & L).
  exists (pick s l). split; [reflexivity|]. eapply pick_length; eauto.
Qed.
Lemma reorder_undo s n atoms : order s n -> table n atoms -> exists t, order t n /\ reorder t (reorder s atoms) = atoms.
Proof.
  intros O (_ & T). destruct (order_undo s n O) as (t & OT & U). exists t. split; auto. unfold reorder. rewrite map_map.
  rewrite <- (map_id atoms) at 2. apply map_ext_in. intros [k v] I. destruct (T _ _ I) as (l & -> & L). cbn [fst snd reorder_value]. rewrite U; auto.
Qed.
Lemma reorder_valid s n atoms req : order s n -> table n atoms -> valid_atoms atoms req -> valid_atoms (reorder s atoms) req.
Proof.
  intros O T V.
  assert (B : forall k v, lookup k (reorder s atoms) = Some v -> exists l, lookup k atoms = Some (PList l) /\ length l = n /\ v = PList (pick s l)).
  { intros k v L. rewrite reorder_lookup in L. destruct (lookup k atoms) as [w|] eqn:E; [|discriminate].
    destruct (table_lookup _ _ _ _ T E) as (l & -> & LL). cbn in L. injection L as <-. eauto. }
  assert (I : forall k v x, lookup k (reorder s atoms) = Some v -> item v x -> exists w, lookup k atoms = Some w /\ item w x).
  { intros k v x L J. destruct (B _ _ L) as (l & E & LL & ->). exists (PList l). split; auto. left. exists l. split; auto.
    destruct J as [(m & M & J)|(m & c & M & _)]; [|discriminate]. injection M as <-. eapply pick_in; eauto. }
  destruct V as [VS VR VP VN VSp VT]. constructor.
  - exists n. intros k v J. left. apply (proj2 (reorder_table s n atoms O T) k v J).
  - intros k K. destruct (VR k K) as (v & L). rewrite reorder_lookup, L. cbn. eauto.
  - intros v L. destruct (B _ _ L) as (l & E & LL & ->). destruct (VP _ E) as (rows & R & NE & H). injection R as <-.
    exists (pick s l). split; auto. split.
    + intros Z. pose proof (pick_length s n l O LL) as PL. rewrite Z in PL. cbn in PL. destruct l; [congruence|cbn in LL; lia].
    + intros r J. apply H. eapply pick_in; eauto.
  - intros v x L J. destruct (I _ _ _ L J) as (w & E & J'). eapply VN; eauto.
  - intros v x L J. destruct (I _ _ _ L J) as (w & E & J'). eapply VSp; eauto.
  - intros v x L J. destruct (I _ _ _ L J) as (w & E & J'). eapply VT; eauto.
Qed.
Lemma types_of_pick s n ids ts : order s n -> length ids = n -> types_of ids = Ok ts -> types_of (pick s ids) = Ok (pick s ts).
Proof.
  intros O L H. unfold types_of in *. cbv zeta in *.
  replace (sorted_set (pick s ids)) with (sorted_set ids).
  - apply mapM_iff in H. apply mapM_iff. apply pick_F2. exact H.
  - destruct (sorted_set_spec ids) as (I & M). destruct (sorted_set_spec (pick s ids)) as (I' & M').
    apply increasing_unique; auto. intros x. rewrite M, M'. symmetry. eapply pick_in; eauto.
Qed.
Lemma types_of_length ids ts : types_of ids = Ok ts -> length ts = length ids.
Proof. unfold types_of. cbv zeta. intros H. apply mapM_iff in H. symmetry. eapply F2_len; eauto. Qed.
Lemma pints_of l ts : Forall2 type_number (map PInt l) ts -> ts = l.
Proof. revert ts. induction l as [|z l IH]; intros ts H; inversion H as [|? ? ? ? T F]; subst; auto. inversion T; subst. f_equal; auto. Qed.
Lemma F2_pints l : Forall2 type_number (map PInt l) l.
Proof. induction l; constructor; auto. constructor. Qed.
Lemma reorder_types s n atoms ts : order s n -> table n atoms -> valid_atoms atoms [] -> has_types atoms ts ->
  length ts = n /\ has_types (reorder s atoms) (pick s ts).
Proof.
  intros O T V (v & G & F). unfold has_types.
  pose proof (proj2 (C29_accepts_exactly_valid _ [] true) (reorder_valid s n atoms [] O T V)) as VR.
  unfold get_spglib_types in *. rewrite VR. apply bind_ok in G. destruct G as (b & _ & G). cbn [bind]. rewrite !reorder_lookup.
  destruct (lookup "spglib_types" atoms) as [tv|] eqn:LT; cbn [option_map].
  { injection G as <-. destruct (table_lookup _ _ _ _ T LT) as (l & -> & L). cbn [elements] in F. split.
    - rewrite <- (F2_len _ _ _ F). exact L.
    - eexists. split; [reflexivity|]. cbn [reorder_value elements]. apply pick_F2. exact F. }
  apply bind_ok in G. destruct G as (ids & I & G). apply bind_ok in G. destruct G as (zs & Z & G). injection G as <-.
  cbn [elements] in F. apply pints_of in F. subst zs.
  assert (K : length ids = n /\ match option_map (reorder_value s) (lookup "species" atoms), option_map (reorder_value s) (lookup "names" atoms) with
                | None, Some v => Ok (map identifier (strs v))
                | Some v, _ => Ok (strs v)
                | None, None => Err ValueError end = Ok (pick s ids)).
  { destruct (lookup "species" atoms) as [sv|] eqn:LS; cbn [option_map].
    - destruct (table_lookup _ _ _ _ T LS) as (l & -> & L). cbn [reorder_value]. unfold strs in *. cbn [elements] in *.
      injection I as <-. rewrite pick_map, map_length. auto.
    - destruct (lookup "names" atoms) as [nv|] eqn:LN; cbn [option_map]; [|discriminate].
      destruct (table_lookup _ _ _ _ T LN) as (l & -> & L). cbn [reorder_value]. unfold strs in *. cbn [elements] in *.
      injection I as <-. rewrite !pick_map, !map_length. auto. }
  destruct K as (LI & ->). cbn [bind]. split; [rewrite (types_of_length _ _ Z); exact LI|].
  rewrite (types_of_pick s n ids ts O LI Z). cbn [bind]. eexists. split; [reflexivity|]. cbn [elements]. apply F2_pints.
Qed.
Lemma reorder_positions s n atoms ps : order s n -> table n atoms -> has_positions atoms ps ->
  length ps = n /\ has_positions (reorder s atoms) (pick s ps).
Proof.
  intros O T (rows & L & F). destruct (table_lookup _ _ _ _ T L) as (l & E & LL). injection E as <-. split.
  - rewrite <- (F2_len _ _ _ F). exact LL.
  - exists (pick s rows). rewrite reorder_lookup, L. split; [reflexivity|]. apply pick_F2. exact F.
Qed.
