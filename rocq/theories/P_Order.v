(* P_Order.v : property C79, the order in which the atoms are listed *)
From Coq Require Import Permutation.
From Verif Require Import Base M_Numerical M_Geometry M_Cell M_Niggli M_Strings M_Dict T_Atoms T_Tables M_Atoms M_Spglib M_Conventional M_Primitive
  M_Variation M_Kpoints M_Path F_Strings F_Geometry F_Atoms F_Conventional F_Voronoi S_Crystal F_Primitive P_Atoms P_Conventional P_Primitive P_Variation P_SpglibData
  F_Order.
Open Scope string_scope.
Open Scope list_scope.
Open Scope R_scope.

(* ---- specification ---- *)
(* (pick, order, reorder, table and shuffled are in F_Order.v) *)
(* A library whose answers do not depend on the order of the atoms: the same lattices, and the same
   atoms of the standardized and primitive cells in some order. *)
Definition orderless (lib : spglib_module) : Prop :=
  forall cell ps ts ps' ts' sp an, shuffled ps ts ps' ts' ->
  match get_symmetry_dataset lib cell ps ts sp an, get_symmetry_dataset lib cell ps' ts' sp an with
  | Some a, Some b => ds_number a = ds_number b /\ ds_std_lattice a = ds_std_lattice b /\
                      ds_std_rotation_matrix a = ds_std_rotation_matrix b /\
                      shuffled (ds_std_positions a) (ds_std_types a) (ds_std_positions b) (ds_std_types b)
  | None, None => True
  | _, _ => False
  end /\
  match find_primitive lib cell ps ts sp an, find_primitive lib cell ps' ts' sp an with
  | Some (c, qs, us), Some (c', qs', us') => c = c' /\ shuffled qs us qs' us'
  | None, None => True
  | _, _ => False
  end.
(* both succeed, with related results, or both raise the same exception *)
Definition alike {A B} (P : A -> B -> Prop) (r : res A) (r' : res B) : Prop :=
  match r, r' with Ok x, Ok y => P x y | Err e, Err e' => e = e' | _, _ => False end.
(* both succeed, with related results, or both raise *)
Definition both {A B} (P : A -> B -> Prop) (r : res A) (r' : res B) : Prop :=
  match r, r' with Ok x, Ok y => P x y | Err _, Err _ => True | _, _ => False end.
Record same_data (d d' : spglib_data) : Prop := {
  sd_cell : original_cell d = original_cell d';
  sd_atoms : shuffled (original_positions d) (original_types d) (original_positions d') (original_types d');
  sd_symprec : symprec d = symprec d';
  sd_angle : angle_tolerance d = angle_tolerance d';
  sd_number : space_group_number d = space_group_number d';
  sd_family : crystal_family d = crystal_family d';
  sd_centring : centring_type d = centring_type d';
  sd_ccell : conventional_cell d = conventional_cell d';
  sd_conv : shuffled (conventional_positions d) (conventional_types d) (conventional_positions d') (conventional_types d');
  sd_pcell : primitive_cell d = primitive_cell d';
  sd_prim : shuffled (primitive_positions d) (primitive_types d) (primitive_positions d') (primitive_types d') }.
(* atoms of one type have one value of the attribute *)
Definition follows_type (atoms : atoms_dict) (ts : list Z) (key : string) : Prop :=
  forall l, lookup key atoms = Some (PList l) -> exists g, l = map g ts.
(* The same cell and the same atoms in some order.  An attribute in which atoms of one type differ is
   not compared. *)
Definition same_crystal (atoms : atoms_dict) (ts : list Z) (r r' : mat * atoms_dict) : Prop :=
  fst r = fst r' /\ keys (snd r) = keys (snd r') /\
  exists ps t, lookup "positions" (snd r) = Some (pos_val ps) /\ order t (length ps) /\
    forall key, key = "positions" \/ follows_type atoms ts key ->
      lookup key (snd r') = option_map (reorder_value t) (lookup key (snd r)).
(* the same cell, and every atom of one is within the tolerance of an atom of the other *)
Definition near_crystal (tol : R) (r r' : mat * atoms_dict) : Prop :=
  fst r = fst r' /\ keys (snd r) = keys (snd r') /\
  exists ps ps', lookup "positions" (snd r) = Some (pos_val ps) /\ lookup "positions" (snd r') = Some (pos_val ps') /\
    (forall p, In p ps -> exists p', In p' ps' /\ norm (vsub p p') <= tol) /\
    (forall p', In p' ps' -> exists p, In p ps /\ norm (vsub p p') <= tol).

(* ---- proofs ---- *)
Lemma shuffled_pick ps ts s : length ps = length ts -> order s (length ps) -> shuffled ps ts (pick s ps) (pick s ts).
Proof. intros L O. split; auto. exists s. auto. Qed.
Lemma shuffled_map ps ts ps' ts' (f : vec -> vec) : shuffled ps ts ps' ts' -> shuffled (map f ps) ts (map f ps') ts'.
Proof.
  intros (L & s & O & -> & ->). split; [rewrite map_length; auto|]. exists s. rewrite map_length, pick_map. auto.
Qed.
Lemma shuffled_types ps ts ps' ts' t : shuffled ps ts ps' ts' -> (In t ts' <-> In t ts).
Proof. intros (L & s & O & -> & ->). eapply pick_in; eauto. Qed.

Lemma data_some lib cell atoms s n sp an d : orderless lib -> order s n -> table n atoms ->
  get_spglib_data (Some lib) cell atoms sp an = Ok d ->
  exists d', get_spglib_data (Some lib) cell (reorder s atoms) sp an = Ok d' /\ same_data d d' /\
             length (original_types d) = n /\ original_types d' = pick s (original_types d).
Proof.
  intros OL O T H. apply C59_contents in H. destruct H as (V & ps & ts & ds & pcell & pps & pts & f & c & HP & HT & DS & FP & RG & FO & CO & ->).
  destruct (reorder_positions s n atoms ps O T HP) as (LP & HP').
  assert (V0 : valid_atoms atoms []) by (eapply valid_weaken; eauto).
  destruct (reorder_types s n atoms ts O T V0 HT) as (LT & HT').
  pose proof (OL cell ps ts (pick s ps) (pick s ts) sp an) as Q.
  destruct Q as (Q1 & Q2). { apply shuffled_pick; congruence. }
  rewrite DS in Q1. rewrite FP in Q2.
  destruct (get_symmetry_dataset lib cell (pick s ps) (pick s ts) sp an) as [b|] eqn:DS'; [|contradiction].
  destruct (find_primitive lib cell (pick s ps) (pick s ts) sp an) as [[[pcell' pps'] pts']|] eqn:FP'; [|contradiction].
  destruct Q1 as (N & LA & RO & SH). destruct Q2 as (PC & SH2). subst pcell'.
  eexists. split; [|split; [|split; [|]]].
  - apply C59_contents. split; [eapply reorder_valid; eauto|].
    exists (pick s ps), (pick s ts), b, pcell, pps', pts', f, c.
    split; [exact HP'|]. split; [exact HT'|]. split; [exact DS'|]. split; [exact FP'|]. split; [rewrite <- N; exact RG|].
    split; [rewrite <- N; exact FO|]. split; [rewrite <- N; exact CO|reflexivity].
  - constructor; cbn; auto; try (rewrite LA, RO; reflexivity); try (rewrite RO; reflexivity).
    + apply shuffled_pick; congruence.
  - exact LT.
  - reflexivity.
Qed.

Theorem C79_data : forall lib cell atoms s n sp an, orderless lib -> order s n -> table n atoms ->
  both same_data (get_spglib_data (Some lib) cell atoms sp an) (get_spglib_data (Some lib) cell (reorder s atoms) sp an).
Proof.
  intros lib cell atoms s n sp an OL O T. unfold both.
  destruct (get_spglib_data (Some lib) cell atoms sp an) as [d|e] eqn:E.
  - destruct (data_some lib cell atoms s n sp an d OL O T E) as (d' & -> & S & _). exact S.
  - destruct (get_spglib_data (Some lib) cell (reorder s atoms) sp an) as [d'|e'] eqn:E'; [|exact I].
    destruct (reorder_undo s n atoms O T) as (t & OT & U).
    destruct (data_some lib cell (reorder s atoms) t n sp an d' OL OT (reorder_table s n atoms O T) E') as (d & D & _).
    rewrite U in D. congruence.
Qed.
Print Assumptions C79_data.

(* the maps from types to atoms *)
Definition index_map (f : Z -> option nat) (ts : list Z) : Prop :=
  (forall t j, f t = Some j -> nth_error ts j = Some t) /\ (forall t, In t ts -> exists j, f t = Some j).
Lemma last_map ts : index_map (last_index ts 0) ts.
Proof.
  split; [|intros; apply last_index_some; auto]. intros t j H. apply last_index_spec in H. rewrite Nat.sub_0_r in H. apply H.
Qed.
Lemma first_map ts : index_map (first_index ts 0) ts.
Proof.
  split.
  - intros t j H. apply first_index_spec in H. rewrite Nat.sub_0_r in H. apply H.
  - assert (G : forall l i t, In t l -> exists j, first_index l i t = Some j).
    { induction l as [|u l IH]; intros i t H; [destruct H|]. cbn [first_index]. destruct (Z.eqb_spec t u) as [->|NE]; eauto.
      destruct H as [->|H]; [congruence|eauto]. }
    intros. apply G; auto.
Qed.
Lemma index_none f ts t : index_map f ts -> ~ In t ts -> f t = None.
Proof. intros (A & _) N. destruct (f t) as [j|] eqn:E; auto. exfalso. apply N. apply A in E. eapply nth_error_In; eauto. Qed.
Lemma mapM_one_err {A B} (f : A -> res B) l e : (forall x, In x l -> (exists y, f x = Ok y) \/ f x = Err e) -> (exists x, In x l /\ f x = Err e) ->
  mapM f l = Err e.
Proof.
  induction l as [|x l IH]; intros G (y & Y & E); [destruct Y|]. cbn [mapM]. destruct (G x (or_introl eq_refl)) as [(z & Z)|Z]; rewrite Z; cbn [bind]; [|reflexivity].
  destruct Y as [->|Y]; [congruence|]. rewrite IH; [reflexivity|intros; apply G; right; auto|eauto].
Qed.
Section Make.
  Variables (f : Z -> option nat) (ts : list Z) (n : nat).
  Hypothesis (IM : index_map f ts) (LT : length ts = n).
  Lemma getter v l t : v = PList l -> length l = n ->
    (In t ts -> exists x, match f t with Some i => py_item v i | None => Err KeyError end = Ok x) /\
    (~ In t ts -> match f t with Some i => py_item v i | None => Err KeyError end = Err KeyError).
  Proof.
    intros -> L. split; intros H.
    - destruct IM as (A & B). destruct (B _ H) as (j & J). rewrite J. unfold py_item. cbn [elements]. apply A in J.
      destruct (nth_error l j) eqn:E; [eauto|]. exfalso. apply nth_error_None in E. assert (j < length ts)%nat by (apply nth_error_Some; congruence). lia.
    - rewrite (index_none f ts t IM H). reflexivity.
  Qed.
  Lemma populate_ok us todo : Forall (fun t => In t ts) us -> (forall k v, In (k, v) todo -> exists l, v = PList l /\ length l = n) ->
    forall acc, exists new, populate f us todo acc = Ok new.
  Proof.
    intros F. induction todo as [|[k v] todo IH]; intros T acc; cbn [populate]; [eauto|].
    destruct (String.eqb k "positions"); [apply IH; intros; eapply T; right; eauto|].
    destruct (T k v (or_introl eq_refl)) as (l & E & L).
    assert (M : exists r, mapM (fun t => match f t with Some i => py_item v i | None => Err KeyError end) us = Ok r).
    { clear IH. induction us as [|u us IHu]; cbn [mapM]; [eauto|]. inversion_clear F as [|? ? FA FB]. destruct (proj1 (getter v l u E L) FA) as (x & ->).
      cbn [bind]. destruct IHu as (r & ->); auto. cbn. eauto. }
    destruct M as (r & ->). cbn [bind]. apply IH. intros; eapply T; right; eauto.
  Qed.
  Lemma populate_bad us todo : ~ Forall (fun t => In t ts) us -> (forall k v, In (k, v) todo -> exists l, v = PList l /\ length l = n) ->
    (exists k v, In (k, v) todo /\ k <> "positions") -> forall acc, populate f us todo acc = Err KeyError.
  Proof.
    intros F. induction todo as [|[k v] todo IH]; intros T (k0 & v0 & I & NP) acc; [destruct I|]. cbn [populate].
    destruct (String.eqb_spec k "positions") as [E|E].
    - apply IH; [intros; eapply T; right; eauto|]. destruct I as [I|I]; [injection I as -> ->; contradiction|eauto].
    - destruct (T k v (or_introl eq_refl)) as (l & V & L). rewrite (mapM_one_err _ us KeyError); [reflexivity| |].
      + intros t _. destruct (in_dec Z.eq_dec t ts); [left|right]; eapply getter; eauto.
      + apply neg_Forall_Exists_neg in F; [|intros x; apply in_dec, Z.eq_dec]. apply Exists_exists in F. destruct F as (t & I1 & I2).
        exists t. split; auto. eapply getter; eauto.
  Qed.
End Make.
Lemma setitem_keys {A B} k (v : A) (w : B) d : forall d', keys d = keys d' -> keys (setitem k v d) = keys (setitem k w d').
Proof.
  induction d as [|[k1 v1] d IH]; intros [|[k2 v2] d'] E; cbn in *; try discriminate; auto.
  injection E as -> E. destruct (String.eqb k k2); cbn; f_equal; auto.
  apply IH. exact E.
Qed.
Lemma populate_keys f f' us us' todo : forall todo' acc acc' n n', keys todo = keys todo' -> keys acc = keys acc' ->
  populate f us todo acc = Ok n -> populate f' us' todo' acc' = Ok n' -> keys n = keys n'.
Proof.
  induction todo as [|[k v] todo IH]; intros [|[k' v'] todo'] acc acc' n n' E A P P'; cbn in E; try discriminate.
  - cbn in P, P'. congruence.
  - injection E as <- E. cbn [populate] in P, P'. destruct (String.eqb k "positions"); [eauto|].
    apply bind_ok in P. destruct P as (l & _ & P). apply bind_ok in P'. destruct P' as (l' & _ & P'). eapply IH; [exact E| |exact P|exact P'].
    apply setitem_keys. exact A.
Qed.
Lemma make_alike f f' ts s n ps ps' us us' atoms :
  index_map f ts -> index_map f' (pick s ts) -> length ts = n -> order s n -> table n atoms ->
  (exists k v, In (k, v) atoms /\ k <> "positions") ->
  (Forall (fun t => In t ts) us <-> Forall (fun t => In t ts) us') ->
  alike (fun a b => keys a = keys b) (make_atoms f ps us atoms) (make_atoms f' ps' us' (reorder s atoms)).
Proof.
  intros IM IM' L O T K F. unfold make_atoms, alike.
  assert (LP : length (pick s ts) = n) by (eapply pick_length; eauto).
  pose proof (reorder_table s n atoms O T) as T'.
  assert (F' : Forall (fun t => In t ts) us' <-> Forall (fun t => In t (pick s ts)) us').
  { rewrite !Forall_forall. split; intros H t X; apply H in X; eapply pick_in; eauto. }
  destruct (Forall_dec (fun t => In t ts) (fun t => in_dec Z.eq_dec t ts) us) as [D|D].
  - destruct (populate_ok f ts n IM L us atoms D (proj2 T) [("positions", pos_val ps)]) as (new & P).
    apply F, F' in D. destruct (populate_ok f' (pick s ts) n IM' LP us' (reorder s atoms) D (proj2 T') [("positions", pos_val ps')]) as (new' & P').
    rewrite P, P'. cbn [bind].
    assert (E : keys new = keys new'). { eapply populate_keys; [| |exact P|exact P']; [symmetry; apply reorder_keys|reflexivity]. }
    assert (EL : (lookup "spglib_types" new = None <-> lookup "spglib_types" new' = None)) by (rewrite !lookup_none, E; tauto).
    destruct (lookup "spglib_types" new) as [x|], (lookup "spglib_types" new') as [y|]; auto.
    + destruct EL as (_ & EL). discriminate EL; auto.
    + destruct EL as (EL & _). discriminate EL; auto.
    + apply setitem_keys. exact E.
  - rewrite (populate_bad f ts n IM L us atoms D (proj2 T) K).
    rewrite (populate_bad f' (pick s ts) n IM' LP us' (reorder s atoms)); [reflexivity| |apply (proj2 T')|].
    + intros X. apply D. apply F, F'. exact X.
    + destruct K as (k & v & I & NP). exists k, (reorder_value s v). split; auto. unfold reorder. apply in_map_iff. exists (k, v). auto.
Qed.
Lemma items_follow f ts g us l : index_map f ts -> items_by f (PList (map g ts)) us l -> l = map g us.
Proof.
  intros (A & _) F. induction F as [|t x us l (j & J & X) F IH]; [reflexivity|]. cbn [map]. f_equal; auto.
  cbn [elements] in X. rewrite nth_error_map, (A _ _ J) in X. cbn in X. congruence.
Qed.
Lemma make_same f f' ts s n c ps us t atoms new new' :
  index_map f ts -> index_map f' (pick s ts) -> length ts = n -> order s n -> table n atoms -> length ps = length us -> order t (length ps) ->
  keys new = keys new' ->
  make_atoms f ps us atoms = Ok new -> make_atoms f' (pick t ps) (pick t us) (reorder s atoms) = Ok new' ->
  same_crystal atoms ts (c, new) (c, new').
Proof.
  intros IM IM' L O T LU OT EK M M'. split; [reflexivity|]. split; [exact EK|].
  destruct (make_atoms_spec _ _ _ _ _ (proj1 T) M) as (A1 & A2 & A3 & A4).
  destruct (make_atoms_spec _ _ _ _ _ (proj1 (reorder_table s n atoms O T)) M') as (B1 & B2 & B3 & B4).
  cbn [fst snd]. exists ps, t. split; [exact A1|]. split; [exact OT|]. intros key H.
  destruct (string_dec key "positions") as [->|NP].
  { rewrite A1, B1. unfold pos_val. cbn [option_map reorder_value]. rewrite pick_map. reflexivity. }
  destruct H as [H|H]; [contradiction|]. destruct (lookup key atoms) as [v|] eqn:E.
  - destruct (table_lookup _ _ _ _ T E) as (l & -> & LL). destruct (H l E) as (g & ->).
    destruct (A2 _ _ NP E) as (r & R & IR).
    assert (E' : lookup key (reorder s atoms) = Some (PList (map g (pick s ts)))) by (rewrite reorder_lookup, E; cbn; rewrite pick_map; reflexivity).
    destruct (B2 _ _ NP E') as (r' & R' & IR'). rewrite R, R'. cbn [option_map reorder_value].
    apply (items_follow _ _ _ _ _ IM) in IR. apply (items_follow _ _ _ _ _ IM') in IR'. subst. rewrite pick_map. reflexivity.
  - assert (E' : lookup key (reorder s atoms) = None) by (rewrite reorder_lookup, E; reflexivity).
    destruct (string_dec key "spglib_types") as [->|NS].
    + rewrite (A3 E), (B3 E'). cbn [option_map reorder_value]. rewrite pick_map. reflexivity.
    + rewrite (A4 _ NP NS E), (B4 _ NP NS E'). reflexivity.
Qed.
Lemma structure_alike nig d d' cv : same_data d d' ->
  alike (fun a b => fst (fst a) = fst (fst b) /\ shuffled (snd (fst a)) (snd a) (snd (fst b)) (snd b))
    (conventional_structure nig d cv) (conventional_structure nig d' cv).
Proof.
  intros [E1 E2 E3 E4 E5 E6 E7 E8 E9 E10 E11]. unfold conventional_structure, spglib_angle_or_default. cbv zeta.
  rewrite <- E3, <- E4, <- E6, <- E7, <- E8, <- E10.
  assert (RE : forall c ps ts ps' ts' old, shuffled ps ts ps' ts' ->
    alike (fun a b => fst (fst a) = fst (fst b) /\ shuffled (snd (fst a)) (snd a) (snd (fst b)) (snd b))
      (do qs <- reexpress ps old c; Ok (c, qs, ts)) (do qs <- reexpress ps' old c; Ok (c, qs, ts'))).
  { intros c ps ts ps' ts' old S. unfold reexpress. destruct (minv c); cbn [bind alike fst snd]; [|reflexivity].
    split; [reflexivity|]. apply shuffled_map. exact S. }
  repeat match goal with |- context [if ?b then _ else _] => destruct b end;
  try reflexivity; try (split; [reflexivity|assumption]);
  match goal with |- alike _ (bind ?r _) _ => destruct r; cbn [bind]; [apply RE; assumption|reflexivity] end.
Qed.
(* _get_unique *)
Lemma filter_perm_length {A} (f : A -> bool) l l' : Permutation l l' -> length (filter f l) = length (filter f l').
Proof. induction 1; cbn; repeat match goal with |- context [if ?b then _ else _] => destruct b end; cbn; congruence. Qed.
Lemma norm_vsub_comm p q : norm (vsub p q) = norm (vsub q p).
Proof. unfold norm. f_equal. vdestruct. vring. Qed.
Lemma norm_vsub_self p : norm (vsub p p) = 0.
Proof. unfold norm. rewrite <- sqrt_0. f_equal. vdestruct. vring. Qed.
Lemma F2_in {A B} (P : A -> B -> Prop) l r y : Forall2 P l r -> In y r -> exists x, In x l /\ P x y.
Proof. induction 1 as [|a b l r H F IH]; intros []; [subst; eauto using in_eq|]. destruct IH as (x & X & Y); auto. eauto using in_cons. Qed.
Lemma F2_in_l {A B} (P : A -> B -> Prop) l r x : Forall2 P l r -> In x l -> exists y, In y r /\ P x y.
Proof. induction 1 as [|a b l r H F IH]; intros []; [subst; eauto using in_eq|]. destruct IH as (y & X & Y); auto. eauto using in_cons. Qed.
Lemma unique_near qs us qs' us' r r' tol ps ts ps' ts' : 0 <= tol -> (forall q, In q qs -> In q qs') ->
  get_unique qs us r tol = Ok (ps, ts) -> get_unique qs' us' r' tol = Ok (ps', ts') ->
  forall p, In p ps -> exists p', In p' ps' /\ norm (vsub p p') <= tol.
Proof.
  intros T I G G' p P. apply get_unique_spec in G; auto. apply get_unique_spec in G'; auto.
  destruct G as (_ & idx & _ & F & _). destruct G' as (_ & idx' & _ & F' & _ & _ & C & _).
  destruct (F2_in _ _ _ _ F P) as (i & _ & q & Q & ->). apply nth_error_In in Q. apply I in Q. apply In_nth_error in Q. destruct Q as (k & Q).
  destruct (C k q Q) as (j & x & J & _ & X & N). destruct (F2_in_l _ _ _ _ F' J) as (y & Y & x' & X' & ->).
  assert (x' = x) by congruence. subst. exists (normal_position x). split; auto. rewrite norm_vsub_comm. exact N.
Qed.
Lemma unique_types qs us r tol ps ts : 0 <= tol -> get_unique qs us r tol = Ok (ps, ts) -> forall t, In t ts -> In t us.
Proof.
  intros T G t I. apply get_unique_spec in G; auto. destruct G as (_ & idx & _ & _ & F & _).
  destruct (F2_in _ _ _ _ F I) as (i & _ & E). eapply nth_error_In; eauto.
Qed.
Lemma unique_fails qs us r tol t : length qs = length us -> order t (length qs) ->
  alike (fun _ _ => True) (get_unique qs us r tol) (get_unique (pick t qs) (pick t us) r tol).
Proof.
  intros LU O. unfold get_unique. cbv zeta. rewrite <- pick_map. remember (map normal_position qs) as nps eqn:EN.
  assert (LN : length nps = length qs) by (subst; apply map_length). pose proof (pick_perm t _ nps O LN) as PM.
  assert (NE : forall p, n_equiv tol (pick t nps) p = n_equiv tol nps p).
  { intros p. unfold n_equiv. f_equal. apply filter_perm_length. exact PM. }
  assert (FE : forallb (fun p => (n_equiv tol (pick t nps) p =? round_half_even r)%Z) (pick t nps) =
               forallb (fun p => (n_equiv tol nps p =? round_half_even r)%Z) nps).
  { apply eq_true_iff_eq. rewrite !forallb_forall. split; intros H p P.
    - rewrite <- NE. apply H. eapply pick_in; eauto.
    - rewrite NE. apply H. eapply pick_in; eauto. }
  rewrite FE. destruct (forallb _ nps); cbn [negb]; [|reflexivity].
  rewrite (pick_length t _ nps O LN), (pick_length t (length qs) us O (eq_sym LU)), LN, LU, !Nat.eqb_refl. cbn [negb].
  pose proof (pick_length t _ nps O LN) as LP. destruct nps as [|x nps], (pick t _) as [|y m]; cbn in LN, LP; try lia; [reflexivity|exact I].
Qed.
Section Two.
  Variables (lib : spglib_module) (cell : mat) (atoms : atoms_dict) (s : list nat) (n : nat) (sp an : R) (d d' : spglib_data).
  Hypothesis OL : orderless lib.
  Hypothesis O : order s n.
  Hypothesis T : table n atoms.
  Hypothesis D : get_spglib_data (Some lib) cell atoms sp an = Ok d.
  Hypothesis D' : get_spglib_data (Some lib) cell (reorder s atoms) sp an = Ok d'.
  Let atoms' := reorder s atoms.
  Let L := Some lib.
  Lemma SD : same_data d d' /\ length (original_types d) = n /\ original_types d' = pick s (original_types d).
  Proof. destruct (data_some lib cell atoms s n sp an d OL O T D) as (d2 & E & S). rewrite D' in E. injection E as <-. exact S. Qed.
  Lemma OD : obtain_data L cell atoms (Data d) = Ok d.
  Proof. apply (C32_data_reused _ _ _ "SC" _ _ _ D). Qed.
  Lemma OD' : obtain_data L cell atoms' (Data d') = Ok d'.
  Proof. apply (C32_data_reused _ _ _ "SC" _ _ _ D'). Qed.
  Lemma other_key : exists k v, In (k, v) atoms /\ k <> "positions".
  Proof.
    apply C59_contents in D. destruct D as (_ & ps & ts & ds & pcell & pps & pts & f & c & _ & (v & G & _) & _).
    unfold get_spglib_types in G. apply bind_ok in G. destruct G as (b & _ & G).
    destruct (lookup "spglib_types" atoms) eqn:E; [apply lookup_pair in E; do 2 eexists; split; [exact E|discriminate]|].
    destruct (lookup "species" atoms) eqn:E1; [apply lookup_pair in E1; do 2 eexists; split; [exact E1|discriminate]|].
    destruct (lookup "names" atoms) eqn:E2; [apply lookup_pair in E2; do 2 eexists; split; [exact E2|discriminate]|]. discriminate.
  Qed.
  (* the conventional crystals, and that the types of the atoms are those of the given ones *)
  Lemma conv cv : alike (fun a b => same_crystal atoms (original_types d) a b /\
      exists ps ts ps' ts', shuffled ps ts ps' ts' /\ Forall (fun t => In t (original_types d)) ts /\
        lookup "positions" (snd a) = Some (pos_val ps) /\ lookup "positions" (snd b) = Some (pos_val ps') /\
        (exists v, lookup "spglib_types" (snd a) = Some v /\ ints v = ts) /\ (exists v, lookup "spglib_types" (snd b) = Some v /\ ints v = ts'))
    (get_conventional L cell atoms cv (Data d)) (get_conventional L cell atoms' cv (Data d')).
  Proof.
    destruct SD as (S & LT & ET). unfold get_conventional. rewrite OD, OD'. cbn [bind].
    pose proof (structure_alike (lib_niggli L) d d' cv S) as A. unfold alike in A.
    destruct (conventional_structure (lib_niggli L) d cv) as [[[c ps] us]|e], (conventional_structure (lib_niggli L) d' cv) as [[[c' ps'] us']|e'];
      cbn [bind fst snd] in *; try contradiction; [|exact A].
    destruct A as (<- & SH). rewrite ET.
    pose proof (make_alike (last_index (original_types d) 0) (last_index (pick s (original_types d)) 0) (original_types d) s n ps ps' us us' atoms
      (last_map _) (last_map _) LT O T other_key) as M.
    assert (FF : Forall (fun t => In t (original_types d)) us <-> Forall (fun t => In t (original_types d)) us').
    { rewrite !Forall_forall. split; intros H t X; apply H; apply (shuffled_types _ _ _ _ t SH); exact X. }
    specialize (M FF). unfold alike in M. fold atoms' in M.
    destruct (make_atoms (last_index (original_types d) 0) ps us atoms) as [new|e] eqn:M1,
             (make_atoms (last_index (pick s (original_types d)) 0) ps' us' atoms') as [new'|e'] eqn:M2; cbn [bind]; try contradiction; [|exact M].
    cbn [alike]. split.
    - destruct SH as (LU & t & OT & -> & ->). eapply make_same; [| | | | | | | |exact M1|exact M2]; eauto using last_map.
    - exists ps, us, ps', us'. split; [exact SH|]. cbn [snd].
      destruct (make_atoms_spec _ _ _ _ _ (proj1 T) M1) as (A1 & A2 & A3 & _).
      destruct (make_atoms_spec _ _ _ _ _ (proj1 (reorder_table s n atoms O T)) M2) as (B1 & B2 & B3 & _).
      split; [|split; [exact A1|split; [exact B1|split]]].
      + destruct other_key as (k & v & I & NP). destruct (proj2 T _ _ I) as (l & E & LL).
        destruct (Forall_dec (fun t => In t (original_types d)) (fun t => in_dec Z.eq_dec t _) us) as [Y|N]; [exact Y|].
        unfold make_atoms in M1. rewrite (populate_bad _ _ n (last_map (original_types d)) LT us atoms N (proj2 T) other_key) in M1. discriminate.
      + destruct (lookup "spglib_types" atoms) as [v|] eqn:E.
        * destruct (A2 "spglib_types" v) as (l & E1 & E2); [discriminate|exact E|]. exists (PList l). split; [exact E1|].
          pose proof (obtain_spglib_types _ _ _ _ _ _ OD E) as IN. unfold ints. cbn [elements]. eapply items_ints; eauto.
        * exists (PList (map PNpInt us)). split; [auto|apply ints_np].
      + destruct (lookup "spglib_types" atoms') as [v|] eqn:E.
        * destruct (B2 "spglib_types" v) as (l & E1 & E2); [discriminate|exact E|]. exists (PList l). split; [exact E1|].
          pose proof (obtain_spglib_types _ _ _ _ _ _ OD' E) as IN. unfold ints. cbn [elements]. rewrite ET in IN. eapply items_ints; eauto.
        * exists (PList (map PNpInt us')). split; [auto|apply ints_np].
  Qed.
  Lemma prim cv : 0 <= symprec d ->
    alike (fun a b => near_crystal (symprec d) a b /\ (lower cv = "spglib" -> same_crystal atoms (original_types d) a b))
      (get_primitive L cell atoms cv (Data d)) (get_primitive L cell atoms' cv (Data d')).
  Proof.
    intros T0. destruct SD as (S & LT & ET). unfold get_primitive. rewrite OD, OD'. cbn [bind].
    assert (A : alike (fun a b => fst (fst a) = fst (fst b) /\
        (lower cv = "spglib" -> shuffled (snd (fst a)) (snd a) (snd (fst b)) (snd b)) /\
        (Forall (fun t => In t (original_types d)) (snd a) <-> Forall (fun t => In t (original_types d)) (snd b)) /\
        (forall p, In p (snd (fst a)) -> exists p', In p' (snd (fst b)) /\ norm (vsub p p') <= symprec d) /\
        (forall p', In p' (snd (fst b)) -> exists p, In p (snd (fst a)) /\ norm (vsub p p') <= symprec d))
      (primitive_structure L cell atoms d cv) (primitive_structure L cell atoms' d' cv)).
    { unfold primitive_structure. cbv zeta. destruct (String.eqb_spec (lower cv) "spglib") as [SP|SP].
      - cbn [alike fst snd]. split; [apply S|]. pose proof (sd_prim _ _ S) as SH. split; [auto|].
        assert (Z : forall p, norm (vsub p p) <= symprec d).
        { intros p. rewrite norm_vsub_self. exact T0. }
        split; [|split].
        + rewrite !Forall_forall. split; intros H t X; apply H; apply (shuffled_types _ _ _ _ t SH); exact X.
        + intros p P. exists p. split; [|apply Z]. destruct SH as (LL & t & OT & -> & _). eapply pick_in; eauto.
        + intros p P. exists p. split; [|apply Z]. destruct SH as (LL & t & OT & E & _). rewrite E in P. eapply pick_in; eauto.
      - destruct (mem (lower cv) ["hpkot"; "sc"]) eqn:MM; [|reflexivity].
        pose proof (conv (lower cv)) as C. unfold alike in C.
        destruct (get_conventional L cell atoms (lower cv) (Data d)) as [[cc ca]|e], (get_conventional L cell atoms' (lower cv) (Data d')) as [[cc' ca']|e'];
          cbn [bind]; try contradiction; [|exact C].
        destruct C as ((EC & _) & ps & ts & ps' & ts' & SH & FT & P1 & P2 & (v & V & IV) & (v' & V' & IV')). cbn [fst snd] in *. subst cc'.
        rewrite <- (sd_family _ _ S), <- (sd_centring _ _ S), <- (sd_symprec _ _ S).
        match goal with |- alike _ (bind ?r _) _ => destruct r as [m|e]; cbn [bind]; [|reflexivity] end.
        rewrite !(getitem_some _ _ _ P1), !(getitem_some _ _ _ P2). cbn [bind]. rewrite !positions_of_val. cbn [bind]. unfold reexpress.
        destruct (minv (mmul (tr m) cc)) as [i|e]; cbn [bind]; [|reflexivity].
        rewrite (getitem_some _ _ _ V), (getitem_some _ _ _ V'). cbn [bind]. rewrite IV, IV'.
        destruct SH as (LU & t & OT & -> & ->). rewrite <- pick_map.
        set (qs := map (fun p => vmat (vmat p cc) i) ps). assert (LQ : length qs = length ps) by apply map_length.
        assert (OT' : order t (length qs)) by (rewrite LQ; exact OT).
        pose proof (unique_fails qs ts (Rabs (det cc / det (mmul (tr m) cc))) (symprec d) t ltac:(congruence) OT') as U. unfold alike in U.
        destruct (get_unique qs ts _ _) as [[up ut]|e] eqn:G1, (get_unique (pick t qs) (pick t ts) _ _) as [[up' ut']|e'] eqn:G2; cbn [bind]; try contradiction; [|exact U].
        cbn [alike fst snd]. split; [reflexivity|]. split; [contradiction|].
        assert (IN : forall q, In q qs <-> In q (pick t qs)) by (intros q; symmetry; eapply pick_in; eauto).
        split; [|split].
        + rewrite Forall_forall in FT. split; intros _; rewrite Forall_forall; intros x X; apply FT.
          * apply (unique_types _ _ _ _ _ _ T0 G2) in X. apply (pick_in t (length ps) ts x OT) in X; auto.
          * eapply unique_types; eauto.
        + eapply unique_near; [exact T0| |exact G1|exact G2]. apply IN.
        + intros p' P'. destruct (unique_near _ _ _ _ _ _ _ _ _ _ _ T0 (fun q => proj2 (IN q)) G2 G1 p' P') as (p & P & N).
          exists p. split; auto. rewrite norm_vsub_comm. exact N. }
    unfold alike in A.
    destruct (primitive_structure L cell atoms d cv) as [[[c ps] us]|e], (primitive_structure L cell atoms' d' cv) as [[[c' ps'] us']|e'];
      cbn [bind fst snd] in *; try contradiction; [|exact A].
    destruct A as (<- & SH & FF & N1 & N2). rewrite ET.
    pose proof (make_alike (first_index (original_types d) 0) (first_index (pick s (original_types d)) 0) (original_types d) s n ps ps' us us' atoms
      (first_map _) (first_map _) LT O T other_key FF) as M. unfold alike in M. fold atoms' in M.
    destruct (make_atoms (first_index (original_types d) 0) ps us atoms) as [new|e] eqn:M1,
             (make_atoms (first_index (pick s (original_types d)) 0) ps' us' atoms') as [new'|e'] eqn:M2; cbn [bind]; try contradiction; [|exact M].
    cbn [alike]. split.
    - split; [reflexivity|]. split; [exact M|]. cbn [snd]. exists ps, ps'.
      split; [apply (make_atoms_spec _ _ _ _ _ (proj1 T) M1)|].
      split; [apply (make_atoms_spec _ _ _ _ _ (proj1 (reorder_table s n atoms O T)) M2)|]. split; [exact N1|exact N2].
    - intros SP. destruct (SH SP) as (LU & t & OT & -> & ->). eapply make_same; [| | | | | | | |exact M1|exact M2]; eauto using first_map.
  Qed.
  Lemma variation : 0 <= symprec d -> sc_get_variation L cell atoms' (Data d') = sc_get_variation L cell atoms (Data d).
  Proof.
    intros T0. destruct SD as (S & _). unfold sc_get_variation. rewrite OD, OD'. cbn [bind]. cbv zeta. unfold lattice_type, spglib_angle_or_default.
    rewrite <- (sd_family _ _ S), <- (sd_centring _ _ S), <- (sd_symprec _ _ S), <- (sd_angle _ _ S).
    destruct (mem _ _); [|reflexivity]. pose proof (conv "SC") as C. pose proof (prim "SC" T0) as P. unfold alike in C, P.
    destruct (get_conventional L cell atoms "SC" (Data d)) as [[cc ca]|e], (get_conventional L cell atoms' "SC" (Data d')) as [[cc' ca']|e'];
      cbn [bind]; try contradiction; [|congruence].
    destruct C as ((EC & _) & _). cbn [fst] in EC. subst cc'. destruct (get_params cc) as [p|e]; cbn [bind]; [|reflexivity].
    repeat match goal with |- (if ?b then _ else _) = _ => destruct b; [reflexivity|] end.
    destruct (String.eqb _ "mC"); [|reflexivity].
    destruct (get_primitive L cell atoms "SC" (Data d)) as [[pcl pa]|e], (get_primitive L cell atoms' "SC" (Data d')) as [[pcl' pa']|e'];
      cbn [bind]; try contradiction; [|congruence].
    destruct P as ((EP & _) & _). cbn [fst] in EP. subst pcl'. reflexivity.
  Qed.
  Lemma symbol : hpkot_get_extended_bl_symbol L cell atoms' (Data d') = hpkot_get_extended_bl_symbol L cell atoms (Data d).
  Proof.
    destruct SD as (S & _). unfold hpkot_get_extended_bl_symbol. rewrite OD, OD'. cbn [bind]. cbv zeta. unfold lattice_type.
    rewrite <- (sd_family _ _ S), <- (sd_centring _ _ S), <- (sd_number _ _ S).
    repeat match goal with |- (if ?b then _ else _) = (if ?b then _ else _) => destruct b; [reflexivity|] end.
    pose proof (conv "HPKOT") as C. unfold alike in C.
    destruct (get_conventional L cell atoms "HPKOT" (Data d)) as [[cc ca]|e], (get_conventional L cell atoms' "HPKOT" (Data d')) as [[cc' ca']|e'];
      cbn [bind]; try contradiction; [|congruence].
    destruct C as ((EC & _) & _). cbn [fst] in EC. subst cc'. reflexivity.
  Qed.
  Lemma path cv trv rel : 0 <= symprec d ->
    get_path_and_points L cell atoms' (Data d') cv trv rel = get_path_and_points L cell atoms (Data d) cv trv rel.
  Proof.
    intros T0. destruct SD as (S & _). unfold get_path_and_points. rewrite OD, OD'. cbn [bind]. cbv zeta. rewrite (variation T0), symbol. unfold lattice_type.
    rewrite <- (sd_family _ _ S), <- (sd_centring _ _ S), <- (sd_number _ _ S).
    pose proof (conv cv) as C. pose proof (prim cv T0) as P. unfold alike in C, P.
    destruct (get_conventional L cell atoms cv (Data d)) as [[cc ca]|e], (get_conventional L cell atoms' cv (Data d')) as [[cc' ca']|e'];
      cbn [bind]; try contradiction; [|congruence].
    destruct C as ((EC & _) & _). cbn [fst] in EC. subst cc'.
    destruct (get_primitive L cell atoms cv (Data d)) as [[pcl pa]|e], (get_primitive L cell atoms' cv (Data d')) as [[pcl' pa']|e'];
      cbn [bind]; try contradiction; [|congruence].
    destruct P as ((EP & _) & _). cbn [fst] in EP. subst pcl'. reflexivity.
  Qed.
End Two.

(* ---- C79 ---- *)
(* Two lists of the same atoms in different orders, each with the data obtained for it (with any
   tolerances).  The conventional cell is the same, and so are its atoms up to their order, with
   every attribute in which atoms of one type agree. *)
Theorem C79_conventional : forall lib cell atoms s n sp an d d' cv,
  orderless lib -> order s n -> table n atoms ->
  get_spglib_data (Some lib) cell atoms sp an = Ok d -> get_spglib_data (Some lib) cell (reorder s atoms) sp an = Ok d' ->
  alike (same_crystal atoms (original_types d)) (get_conventional (Some lib) cell atoms cv (Data d))
    (get_conventional (Some lib) cell (reorder s atoms) cv (Data d')).
Proof.
  intros lib cell atoms s n sp an d d' cv OL O T D D'. pose proof (conv lib cell atoms s n sp an d d' OL O T D D' cv) as C.
  unfold alike in *. destruct (get_conventional _ _ atoms _ _), (get_conventional _ _ (reorder s atoms) _ _); auto. apply C.
Qed.
Print Assumptions C79_conventional.
(* The primitive cell is the same, and its atoms are the same within symprec (exactly, up to their
   order, for the spglib convention). *)
Theorem C79_primitive : forall lib cell atoms s n sp an d d' cv,
  orderless lib -> order s n -> table n atoms -> 0 <= sp ->
  get_spglib_data (Some lib) cell atoms sp an = Ok d -> get_spglib_data (Some lib) cell (reorder s atoms) sp an = Ok d' ->
  alike (fun r r' => near_crystal sp r r' /\ (lower cv = "spglib" -> same_crystal atoms (original_types d) r r'))
    (get_primitive (Some lib) cell atoms cv (Data d)) (get_primitive (Some lib) cell (reorder s atoms) cv (Data d')).
Proof.
  intros lib cell atoms s n sp an d d' cv OL O T SP D D'.
  assert (E : symprec d = sp).
  { pose proof D as K. apply C59_contents in K. destruct K as (_ & ps & ts & ds & pcell & pps & pts & f & c & _ & _ & _ & _ & _ & _ & _ & ->). reflexivity. }
  rewrite <- E in SP |- *. apply (prim lib cell atoms s n sp an d d' OL O T D D' cv SP).
Qed.
Print Assumptions C79_primitive.
(* The names of the Bravais lattice, the k-path and the points are the same, exceptions included. *)
Theorem C79_names_and_paths : forall lib cell atoms s n sp an d d',
  orderless lib -> order s n -> table n atoms -> 0 <= sp ->
  get_spglib_data (Some lib) cell atoms sp an = Ok d -> get_spglib_data (Some lib) cell (reorder s atoms) sp an = Ok d' ->
  sc_get_variation (Some lib) cell (reorder s atoms) (Data d') = sc_get_variation (Some lib) cell atoms (Data d) /\
  hpkot_get_extended_bl_symbol (Some lib) cell (reorder s atoms) (Data d') = hpkot_get_extended_bl_symbol (Some lib) cell atoms (Data d) /\
  (forall cv trv rel, get_path_and_points (Some lib) cell (reorder s atoms) (Data d') cv trv rel =
                      get_path_and_points (Some lib) cell atoms (Data d) cv trv rel) /\
  (forall cv trv k, from_crystal (Some lib) cell (reorder s atoms) cv trv k (Data d') = from_crystal (Some lib) cell atoms cv trv k (Data d)).
Proof.
  intros lib cell atoms s n sp an d d' OL O T SP D D'.
  assert (E : symprec d = sp).
  { pose proof D as K. apply C59_contents in K. destruct K as (_ & ps & ts & ds & pcell & pps & pts & f & c & _ & _ & _ & _ & _ & _ & _ & ->). reflexivity. }
  rewrite <- E in SP. pose proof (path lib cell atoms s n sp an d d' OL O T D D') as P.
  split; [eapply variation; eauto|]. split; [eapply symbol; eauto|]. split; [intros; apply P; exact SP|].
  intros cv trv k. unfold from_crystal. rewrite P by exact SP. reflexivity.
Qed.
Print Assumptions C79_names_and_paths.
(* The same without a data object, as the functions are usually called. *)
Lemma obtain_none lib cell atoms : obtain_data (Some lib) cell atoms NoData = get_spglib_data (Some lib) cell atoms default_symprec default_spglib_angle.
Proof. unfold obtain_data, get_spglib_data. destruct (validate_atoms atoms ["positions"] true); reflexivity. Qed.
Lemma both_of {A B} (P : A -> B -> Prop) r r' : alike P r r' -> both P r r'.
Proof. unfold alike, both. destruct r, r'; auto. Qed.
Theorem C79_usual_calls : forall lib cell atoms s n ts,
  orderless lib -> order s n -> table n atoms -> has_types atoms ts ->
  (forall cv, both (same_crystal atoms ts) (get_conventional (Some lib) cell atoms cv NoData) (get_conventional (Some lib) cell (reorder s atoms) cv NoData)) /\
  (forall cv, both (near_crystal (1 / 10 ^ 5)) (get_primitive (Some lib) cell atoms cv NoData) (get_primitive (Some lib) cell (reorder s atoms) cv NoData)) /\
  both eq (sc_get_variation (Some lib) cell atoms NoData) (sc_get_variation (Some lib) cell (reorder s atoms) NoData) /\
  both eq (hpkot_get_extended_bl_symbol (Some lib) cell atoms NoData) (hpkot_get_extended_bl_symbol (Some lib) cell (reorder s atoms) NoData) /\
  (forall cv trv rel, both eq (get_path_and_points (Some lib) cell atoms NoData cv trv rel) (get_path_and_points (Some lib) cell (reorder s atoms) NoData cv trv rel)) /\
  (forall cv trv k, both eq (from_crystal (Some lib) cell atoms cv trv k NoData) (from_crystal (Some lib) cell (reorder s atoms) cv trv k NoData)).
Proof.
  intros lib cell atoms s n ts OL O T HT.
  pose proof (C79_data lib cell atoms s n default_symprec default_spglib_angle OL O T) as B. unfold both in B at 1.
  assert (DE : default_symprec = 1 / 10 ^ 5) by (unfold default_symprec; lra). rewrite <- DE.
  assert (D0 : 0 <= default_symprec) by (rewrite DE; lra).
  destruct (get_spglib_data (Some lib) cell atoms default_symprec default_spglib_angle) as [d|e] eqn:D,
           (get_spglib_data (Some lib) cell (reorder s atoms) default_symprec default_spglib_angle) as [d'|e'] eqn:D'; try contradiction.
  - destruct (C59_reused _ _ _ _ D) as (R1 & R2 & R3 & R4 & R5 & R6). destruct (C59_reused _ _ _ _ D') as (Q1 & Q2 & Q3 & Q4 & Q5 & Q6).
    destruct (C79_names_and_paths lib cell atoms s n _ _ d d' OL O T D0 D D') as (N1 & N2 & N3 & N4).
    assert (TE : original_types d = ts).
    { apply C59_contents in D. destruct D as (_ & ps & us & ds & pcell & pps & pts & f & c & _ & (v & G & F) & _ & _ & _ & _ & _ & ->).
      destruct HT as (v' & G' & F'). assert (v' = v) by congruence. subst v'. cbn [original_types]. rewrite <- (types_are _ _ F). apply types_are. exact F'. }
    assert (EQ : forall A (r : res A), both eq r r) by (intros A [r|r]; cbn; auto).
    repeat split; intros.
    + rewrite <- R1, <- Q1, <- TE. apply both_of. eapply C79_conventional; eauto.
    + rewrite <- R2, <- Q2. pose proof (C79_primitive lib cell atoms s n _ _ d d' cv OL O T D0 D D') as P. unfold alike, both in *.
      destruct (get_primitive _ _ atoms _ _), (get_primitive _ _ (reorder s atoms) _ _); auto. apply P.
    + rewrite <- R3, <- Q3, N1. apply EQ.
    + rewrite <- R4, <- Q4, N2. apply EQ.
    + rewrite <- R5, <- Q5, N3. apply EQ.
    + rewrite <- R6, <- Q6, N4. apply EQ.
  - assert (E1 : obtain_data (Some lib) cell atoms NoData = Err e) by (rewrite obtain_none; exact D).
    assert (E2 : obtain_data (Some lib) cell (reorder s atoms) NoData = Err e') by (rewrite obtain_none; exact D').
    repeat split; intros;
    unfold from_crystal, get_path_and_points, get_conventional, get_primitive, sc_get_variation, hpkot_get_extended_bl_symbol; rewrite E1, E2; exact I.
Qed.
Print Assumptions C79_usual_calls.

(* A library that takes every crystal as it is, for the examples. *)
Definition echo : spglib_module := {|
  get_symmetry_dataset cell ps ts sp an := Some (Dataset 221 cell mid ps ts);
  find_primitive cell ps ts sp an := Some (cell, ps, ts);
  niggli_reduce cell eps := Ok cell |}.
Lemma echo_orderless : orderless echo.
Proof. intros cell ps ts ps' ts' sp an S. cbn. auto. Qed.
Definition two_irons : atoms_dict :=
  [("names", PList [PStr "Fe1"; PStr "O1"; PStr "Fe2"]);
   ("positions", PList [PList [PInt 0; PInt 0; PInt 0]; PList [PInt 0; PInt 0; PFloat (1 / 4)]; PList [PInt 0; PInt 0; PFloat (1 / 2)]]);
   ("spins", PList [PFloat (5 / 2); PFloat 0; PFloat (5 / 2)])].
Definition backwards : list nat := [2; 1; 0]%nat.
Lemma backwards_order : order backwards 3.
Proof. unfold order, backwards. cbn [seq]. apply Permutation_sym. exact (Permutation_rev [0; 1; 2]%nat). Qed.
Lemma two_irons_table : table 3 two_irons.
Proof.
  split.
  - unfold two_irons, keys. cbn [map fst]. repeat constructor; cbn; intuition discriminate.
  - intros k v I. unfold two_irons in I. cbn in I. decompose [or] I; try contradiction;
    match goal with H : (_, _) = _ |- _ => injection H as <- <- end; eexists; split; reflexivity.
Qed.
(* Attributes in which atoms of one type differ do depend on the order: get_conventional takes
   them from the last atom of the type, get_primitive from the first. *)
Theorem C79_attributes_refuted : exists lib cell atoms s n c c' new new',
  orderless lib /\ order s n /\ table n atoms /\
  get_conventional (Some lib) cell atoms "SPGLIB" NoData = Ok (c, new) /\
  get_conventional (Some lib) cell (reorder s atoms) "SPGLIB" NoData = Ok (c', new') /\
  lookup "names" new = Some (PList [PStr "Fe2"; PStr "O1"; PStr "Fe2"]) /\
  lookup "names" new' = Some (PList [PStr "Fe1"; PStr "O1"; PStr "Fe1"]) /\
  ~ exists t, lookup "names" new' = option_map (reorder_value t) (lookup "names" new).
Proof.
  exists echo, mid, two_irons, backwards, 3%nat. do 4 eexists. split; [exact echo_orderless|]. split; [exact backwards_order|].
  split; [exact two_irons_table|]. split; [vm_compute; reflexivity|]. split; [vm_compute; reflexivity|]. split; [reflexivity|]. split; [reflexivity|].
  intros (t & E). assert (I : In (PStr "Fe1") (pick t [PStr "Fe2"; PStr "O1"; PStr "Fe2"])).
  { cbn [lookup String.eqb Ascii.eqb Bool.eqb option_map reorder_value] in E. injection E as E. rewrite <- E. left; reflexivity. }
  unfold pick in I. apply in_flat_map in I. destruct I as (i & _ & I). destruct i as [|[|[|i]]]; cbn in I; try (destruct i; cbn in I; contradiction);
  destruct I as [I|[]]; discriminate I.
Qed.
Print Assumptions C79_attributes_refuted.
(* The hypotheses are met, and the calls succeed, by a crystal with an attribute that follows the types. *)
Example C79_case : orderless echo /\ order backwards 3 /\ table 3 two_irons /\ has_types two_irons [1; 2; 1]%Z /\
  follows_type two_irons [1; 2; 1]%Z "spins" /\
  (exists r, get_conventional (Some echo) mid two_irons "SPGLIB" NoData = Ok r) /\
  (exists r, get_primitive (Some echo) mid two_irons "SPGLIB" NoData = Ok r).
Proof.
  split; [exact echo_orderless|]. split; [exact backwards_order|]. split; [exact two_irons_table|]. split.
  - eexists. split; [vm_compute; reflexivity|]. repeat constructor.
  - split.
    + intros l H. exists (fun t => if Z.eqb t 1 then PFloat (5 / 2) else PFloat 0). cbn [two_irons lookup String.eqb Ascii.eqb Bool.eqb] in H.
      injection H as <-. reflexivity.
    + split; eexists; vm_compute; reflexivity.
Qed.
