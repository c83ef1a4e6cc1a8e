(* P_Conventional.v : properties C32-C36 (conventional cells). *)
From Verif Require Import Base M_Strings M_Dict M_Numerical M_Geometry M_Cell M_Niggli M_Atoms T_Tables M_Spglib
  M_Conventional F_Geometry F_Niggli F_Voronoi F_Strings F_Atoms S_Crystal F_Conventional.
Open Scope string_scope.
Open Scope list_scope.
Open Scope R_scope.

(* ================= C32 ================= *)
(* The structure reported by spglib that a convention starts from. *)
Definition starts_from_primitive (d : spglib_data) (convention : string) : bool :=
  String.eqb (lower convention) "sc" && String.eqb (crystal_family d) "h" && String.eqb (centring_type d) "R".
Definition base_cell d cv := if starts_from_primitive d cv then primitive_cell d else conventional_cell d.
Definition base_positions d cv := if starts_from_primitive d cv then primitive_positions d else conventional_positions d.
Definition base_types d cv := if starts_from_primitive d cv then primitive_types d else conventional_types d.
(* the only case where the external Niggli reduction is called *)
Definition uses_niggli (d : spglib_data) (convention : string) : bool :=
  String.eqb (lower convention) "hpkot" && String.eqb (crystal_family d) "a".

Lemma structure_spec niggli s d cv c ps ts : niggli_sound niggli s -> (s = 1 \/ s = -1)%Z ->
  conventional_structure niggli d cv = Ok (c, ps, ts) ->
  moved (if uses_niggli d cv then s else 1%Z) (base_cell d cv) c /\
  Forall2 (fun p q => vmat q c = vmat p (base_cell d cv)) (base_positions d cv) ps /\
  ts = base_types d cv.
Proof.
  intros NS Sg H. unfold conventional_structure in H. cbv zeta in H.
  unfold base_cell, base_positions, base_types, starts_from_primitive, uses_niggli.
  destruct (String.eqb_spec (lower cv) "spglib") as [E1|E1]; cbn [orb] in H.
  { rewrite E1 in *. change (String.eqb "spglib" "hpkot") with false in *. change (String.eqb "spglib" "sc") with false.
    cbn [andb] in *. injection H as <- <- <-. split; [apply moved_refl|]. split; auto.
    induction (conventional_positions d); constructor; auto. }
  destruct (String.eqb_spec (lower cv) "hpkot") as [E2|E2].
  { rewrite E2 in *. change (String.eqb "hpkot" "sc") with false. cbn [andb] in *.
    destruct (String.eqb_spec (crystal_family d) "a") as [E3|E3].
    - apply bind_ok in H. destruct H as (c0 & C & H). apply bind_ok in H. destruct H as (ps0 & P & H).
      injection H as <- <- <-. split; [eapply hpkot_a_moved; eauto|]. split; auto. apply reexpress_ok; auto.
    - injection H as <- <- <-. split; [apply moved_refl|]. split; auto.
      induction (conventional_positions d); constructor; auto. }
  cbn [andb]. destruct (String.eqb_spec (lower cv) "sc") as [E3|E3]; [|discriminate]. cbn [andb].
  destruct (String.eqb (crystal_family d) "h" && String.eqb (centring_type d) "R").
  - apply bind_ok in H. destruct H as (c0 & C & H). apply bind_ok in H. destruct H as (ps0 & P & H).
    injection H as <- <- <-. split; [eapply hR_moved; eauto|]. split; auto. apply reexpress_ok; auto.
  - apply bind_ok in H. destruct H as (c0 & C & H). apply bind_ok in H. destruct H as (ps0 & P & H).
    injection H as <- <- <-. split; [eapply no_hR_moved; eauto|]. split; auto. apply reexpress_ok; auto.
Qed.
Lemma get_conventional_inv spglib cell atoms cv arg c' new : get_conventional spglib cell atoms cv arg = Ok (c', new) ->
  exists d ps ts, obtain_data spglib cell atoms arg = Ok d /\
    conventional_structure (lib_niggli spglib) d cv = Ok (c', ps, ts) /\
    make_atoms (last_index (original_types d) 0) ps ts atoms = Ok new.
Proof.
  unfold get_conventional. intros H. apply bind_ok in H. destruct H as (d & D & H).
  apply bind_ok in H. destruct H as ([[c ps] ts] & E & H). apply bind_ok in H. destruct H as (n & N & H).
  injection H as <- <-. eauto 10.
Qed.

(* Whatever the convention and the branch, the new cell is an integer matrix of determinant 1 times
   the cell found by spglib.  In the single case that calls the external Niggli reduction the
   determinant is that of the external reduction. *)
Theorem C32_change_of_basis : forall spglib cell atoms cv arg c' new s,
  niggli_sound (lib_niggli spglib) s -> (s = 1 \/ s = -1)%Z ->
  get_conventional spglib cell atoms cv arg = Ok (c', new) ->
  exists d k, obtain_data spglib cell atoms arg = Ok d /\
    c' = mmul (ofZ k) (base_cell d cv) /\
    zdet k = (if uses_niggli d cv then s else 1%Z) /\
    same_lattice c' (base_cell d cv) /\
    det c' = IZR (if uses_niggli d cv then s else 1%Z) * det (base_cell d cv).
Proof.
  intros spglib cell atoms cv arg c' new s N Sg H.
  apply get_conventional_inv in H. destruct H as (d & ps & ts & D & E & M).
  destruct (structure_spec _ _ _ _ _ _ _ N Sg E) as ((k & K & C) & _ & _).
  exists d, k. split; auto. split; auto. split; auto. split.
  - rewrite C. apply unimodular_same_lattice. unfold unimodular. rewrite K. destruct (uses_niggli d cv); auto.
  - rewrite C, det_mmul, ofZ_det, K. reflexivity.
Qed.
Print Assumptions C32_change_of_basis.

(* the types of the input atoms, as spglib sees them, are those of the data used *)
Lemma all2_eq l l' : all2 Z.eqb l l' = true -> l = l'.
Proof.
  revert l'. induction l as [|x l IH]; intros [|y l'] H; try discriminate; auto.
  cbn [all2] in H. apply andb_true_iff in H. destruct H as (A & B). apply Z.eqb_eq in A. subst. f_equal; auto.
Qed.
Lemma obtain_types spglib cell atoms arg d : obtain_data spglib cell atoms arg = Ok d ->
  exists tv, get_spglib_types atoms = Ok tv /\ ints tv = original_types d.
Proof.
  unfold obtain_data. intros H. unbind H. destruct arg as [| |d0]; [|discriminate|].
  - unfold get_spglib_data in H. destruct spglib; [|discriminate]. unbind H. unbind H. unbind H.
    apply bind_ok in H. destruct H as (tv & T & H). cbv zeta in H. exists tv. split; auto.
    destruct (get_symmetry_dataset _ _ _ _ _ _); [|discriminate]. unbind H. unbind H.
    destruct (find_primitive _ _ _ _ _ _) as [[[? ?] ?]|]; [|discriminate]. injection H as <-. reflexivity.
  - apply bind_ok in H. destruct H as (u & V & H). injection H as ->.
    unfold validate_spglib_data in V. destruct (allclose_mat cell (original_cell d)); [|discriminate].
    cbn [negb] in V. unbind V. unbind V. apply bind_ok in V. destruct V as (sm & S1 & V).
    destruct sm; [|discriminate]. cbn [negb] in V. apply bind_ok in V. destruct V as (tv & T & V).
    exists tv. split; auto. destruct (all2 Z.eqb (ints tv) (original_types d)) eqn:A; [|discriminate].
    apply all2_eq; auto.
Qed.
Lemma spglib_types_given atoms v tv : lookup "spglib_types" atoms = Some v -> get_spglib_types atoms = Ok tv -> tv = v.
Proof. unfold get_spglib_types. intros L H. unbind H. rewrite L in H. injection H as <-. reflexivity. Qed.
Lemma obtain_spglib_types spglib cell atoms arg d v : obtain_data spglib cell atoms arg = Ok d ->
  lookup "spglib_types" atoms = Some v -> ints v = original_types d.
Proof.
  intros H L. destruct (obtain_types _ _ _ _ _ H) as (tv & T & E). rewrite (spglib_types_given _ _ _ L T) in E. exact E.
Qed.
Lemma items_ints l v ts r : ints v = l -> items_by (last_index l 0) v ts r -> map int_of r = ts.
Proof.
  intros E H. induction H as [|t x ts r (j & J & X) _ IH]; [reflexivity|]. cbn [map]. f_equal; auto.
  apply last_index_spec in J. destruct J as (_ & J & _). rewrite Nat.sub_0_r, <- E in J. unfold ints in J.
  rewrite nth_error_map, X in J. cbn in J. congruence.
Qed.
Lemma ints_np ts : ints (PList (map PNpInt ts)) = ts.
Proof. unfold ints. cbn [elements]. rewrite map_map. cbn. apply map_id. Qed.

(* The returned dictionary describes, with the returned cell, the very crystal that spglib
   reported: the same Cartesian points are occupied by atoms of the same types. *)
Theorem C32_same_crystal : forall spglib cell atoms cv arg c' new s,
  NoDup (keys atoms) -> niggli_sound (lib_niggli spglib) s -> (s = 1 \/ s = -1)%Z ->
  get_conventional spglib cell atoms cv arg = Ok (c', new) ->
  exists d pv tv ps, obtain_data spglib cell atoms arg = Ok d /\
    lookup "positions" new = Some pv /\ positions_of pv = Ok ps /\
    lookup "spglib_types" new = Some tv /\
    length ps = length (base_positions d cv) /\ ints tv = base_types d cv /\
    same_crystal (base_cell d cv) (base_positions d cv) (base_types d cv) c' ps (ints tv).
Proof.
  intros spglib cell atoms cv arg c' new s ND N Sg H.
  apply get_conventional_inv in H. destruct H as (d & ps & ts & D & E & M).
  destruct (structure_spec _ _ _ _ _ _ _ N Sg E) as (MV & F & T).
  destruct (make_atoms_spec _ _ _ _ _ ND M) as (P & I & TN & _).
  assert (X : exists tv, lookup "spglib_types" new = Some tv /\ ints tv = base_types d cv).
  { destruct (lookup "spglib_types" atoms) as [v|] eqn:L.
    - destruct (I "spglib_types" v) as (l & L' & IB); [discriminate|exact L|]. exists (PList l). split; auto.
      unfold ints at 1. cbn [elements]. rewrite <- T. eapply items_ints; [|eauto].
      eapply obtain_spglib_types; eauto.
    - exists (PList (map PNpInt ts)). split; [apply TN; auto|]. rewrite ints_np. exact T. }
  destruct X as (tv & TV & TE). exists d, (pos_val ps), tv, ps.
  split; auto. split; auto. split; [apply positions_of_val|]. split; auto.
  split; [symmetry; eapply Forall2_len; eauto|]. split; auto.
  rewrite TE. eapply moved_crystal; [|exact MV|exact F]. destruct (uses_niggli d cv); auto.
Qed.
Print Assumptions C32_same_crystal.

(* Hence, when spglib's answer describes the crystal that was passed in, so does the result. *)
Lemma same_crystal_trans {T} c ps (ts : list T) c1 ps1 ts1 c2 ps2 ts2 :
  same_crystal c ps ts c1 ps1 ts1 -> same_crystal c1 ps1 ts1 c2 ps2 ts2 -> same_crystal c ps ts c2 ps2 ts2.
Proof. intros A B x t. rewrite (A x t). apply B. Qed.
Lemma obtain_nodata spglib cell atoms d : obtain_data spglib cell atoms NoData = Ok d ->
  get_spglib_data spglib cell atoms default_symprec default_spglib_angle = Ok d /\
  original_cell d = cell /\
  exists pv, lookup "positions" atoms = Some pv /\ positions_of pv = Ok (original_positions d).
Proof.
  unfold obtain_data. intros H. unbind H. split; auto. unfold get_spglib_data in H.
  destruct spglib; [|discriminate]. unbind H. apply bind_ok in H. destruct H as (pv & P & H).
  apply bind_ok in H. destruct H as (ps & PS & H). unbind H. cbv zeta in H.
  destruct (get_symmetry_dataset _ _ _ _ _ _); [|discriminate]. unbind H. unbind H.
  destruct (find_primitive _ _ _ _ _ _) as [[[? ?] ?]|]; [|discriminate]. injection H as <-. cbn.
  split; auto. exists pv. split; auto. unfold getitem in P. destruct (lookup "positions" atoms); congruence.
Qed.
Theorem C32_input_crystal : forall spglib cell atoms cv c' new s,
  NoDup (keys atoms) -> niggli_sound (lib_niggli spglib) s -> (s = 1 \/ s = -1)%Z ->
  get_conventional spglib cell atoms cv NoData = Ok (c', new) ->
  exists d pv tv ps pv' tv' ps',
    get_spglib_data spglib cell atoms default_symprec default_spglib_angle = Ok d /\
    lookup "positions" atoms = Some pv /\ positions_of pv = Ok ps /\ get_spglib_types atoms = Ok tv /\
    lookup "positions" new = Some pv' /\ positions_of pv' = Ok ps' /\ lookup "spglib_types" new = Some tv' /\
    (same_crystal cell ps (ints tv) (base_cell d cv) (base_positions d cv) (base_types d cv) ->
     same_crystal cell ps (ints tv) c' ps' (ints tv')).
Proof.
  intros spglib cell atoms cv c' new s ND N Sg H.
  destruct (C32_same_crystal _ _ _ _ _ _ _ _ ND N Sg H) as (d & pv' & tv' & ps' & D & A & B & C & _ & _ & SC).
  destruct (obtain_nodata _ _ _ _ D) as (G & OC & pv & P & PS). destruct (obtain_types _ _ _ _ _ D) as (tv & T & TE).
  exists d, pv, tv, (original_positions d), pv', tv', ps'. do 7 (split; auto).
  intros F. eapply same_crystal_trans; eauto.
Qed.
Print Assumptions C32_input_crystal.

(* The other entries: every key of the input is kept, and the value of a new atom is copied from the
   last input atom with the same type. *)
Theorem C32_properties_of_last_atom : forall spglib cell atoms cv arg c' new,
  NoDup (keys atoms) -> get_conventional spglib cell atoms cv arg = Ok (c', new) ->
  exists d, obtain_data spglib cell atoms arg = Ok d /\
  (forall key v, key <> "positions" -> lookup key atoms = Some v ->
     exists l, lookup key new = Some (PList l) /\
       Forall2 (fun t x => exists j, nth_error (original_types d) j = Some t /\
                  (forall j', (j < j')%nat -> nth_error (original_types d) j' <> Some t) /\
                  nth_error (elements v) j = Some x) (base_types d cv) l) /\
  (forall key, In key (keys new) <-> In key (keys atoms) \/ key = "positions" \/ key = "spglib_types").
Proof.
  intros spglib cell atoms cv arg c' new ND H.
  apply get_conventional_inv in H. destruct H as (d & ps & ts & D & E & M).
  assert (T : ts = base_types d cv).
  { unfold conventional_structure in E. cbv zeta in E. unfold base_types, starts_from_primitive.
    destruct (String.eqb_spec (lower cv) "spglib") as [E1|E1]; cbn [orb] in E.
    { rewrite E1 in *. change (String.eqb "spglib" "sc") with false. cbn [andb] in *.
      change (String.eqb "spglib" "hpkot") with false in E. cbn [andb] in E. congruence. }
    destruct (String.eqb_spec (lower cv) "hpkot") as [E2|E2].
    { rewrite E2. change (String.eqb "hpkot" "sc") with false. cbn [andb] in *.
      destruct (String.eqb (crystal_family d) "a"); [unbind E; unbind E|]; congruence. }
    destruct (String.eqb_spec (lower cv) "sc") as [E3|E3]; [|discriminate]. cbn [andb].
    destruct (String.eqb (crystal_family d) "h" && String.eqb (centring_type d) "R");
      unbind E; unbind E; congruence. }
  destruct (make_atoms_spec _ _ _ _ _ ND M) as (P & I & TN & NN).
  exists d. split; auto. split.
  - intros key v NP L. destruct (I key v NP L) as (l & L' & IB). exists l. split; auto. rewrite <- T.
    revert IB. unfold items_by. apply Forall2_weaken. intros t x (j & J & X). exists j.
    apply last_index_spec in J. rewrite Nat.sub_0_r in J. tauto.
  - intros key. rewrite <- !lookup_in. split.
    + intros (v & V). destruct (string_dec key "positions") as [->|N1]; [auto|].
      destruct (string_dec key "spglib_types") as [->|N2]; [auto|].
      destruct (lookup key atoms) eqn:L; [eauto|]. rewrite (NN key N1 N2 L) in V. discriminate.
    + intros [(v & V) | [-> | ->]].
      * destruct (string_dec key "positions") as [->|N1]; [eauto|].
        destruct (I key v N1 V) as (l & L & _). eauto.
      * eauto.
      * destruct (lookup "spglib_types" atoms) as [v|] eqn:L; [|eauto].
        destruct (I "spglib_types" v) as (l & L' & _); [discriminate|exact L|]. eauto.
Qed.
Print Assumptions C32_properties_of_last_atom.

(* The name of the convention: exactly three, case-insensitive. *)
Theorem C32_convention_names : forall spglib cell atoms arg d,
  obtain_data spglib cell atoms arg = Ok d ->
  (forall cv, ~ In (lower cv) ["spglib"; "hpkot"; "sc"] ->
     get_conventional spglib cell atoms cv arg = Err ConventionNotSupported) /\
  (forall cv cv', lower cv = lower cv' ->
     get_conventional spglib cell atoms cv arg = get_conventional spglib cell atoms cv' arg).
Proof.
  intros spglib cell atoms arg d D. split.
  - intros cv NI. unfold get_conventional. rewrite D. cbn [bind]. unfold conventional_structure. cbv zeta.
    destruct (String.eqb_spec (lower cv) "spglib") as [E|_]; [destruct NI; cbn; auto|].
    destruct (String.eqb_spec (lower cv) "hpkot") as [E|_]; [destruct NI; cbn; auto|].
    destruct (String.eqb_spec (lower cv) "sc") as [E|_]; [destruct NI; cbn; auto|]. reflexivity.
  - intros cv cv' E. unfold get_conventional, conventional_structure. rewrite E. reflexivity.
Qed.
Print Assumptions C32_convention_names.

(* Data computed for the structure is always accepted back, and passing it changes nothing. *)
Lemma close1_refl x : close1 x x = true.
Proof.
  unfold close1. apply Rleb_true. replace (x - x) with 0 by lra. rewrite Rabs_R0. pose proof (Rabs_pos x). lra.
Qed.
Lemma allclose_refl v : allclose v v = true.
Proof. unfold allclose. rewrite !close1_refl. reflexivity. Qed.
Lemma all2_refl {A} (f : A -> A -> bool) l : (forall x, f x x = true) -> all2 f l l = true.
Proof. intros H. induction l; cbn; auto. rewrite H. auto. Qed.
Lemma obtain_own spglib cell atoms d pv tv : validate_atoms atoms ["positions"] true = Ok true ->
  original_cell d = cell -> lookup "positions" atoms = Some pv -> positions_of pv = Ok (original_positions d) ->
  get_spglib_types atoms = Ok tv -> ints tv = original_types d ->
  obtain_data spglib cell atoms (Data d) = Ok d.
Proof.
  intros V C P PS T TE. unfold obtain_data. rewrite V. cbn [bind]. unfold validate_spglib_data.
  rewrite C. unfold allclose_mat. rewrite !allclose_refl. cbn [andb negb]. unfold getitem. rewrite P. cbn [bind].
  rewrite PS. cbn [bind]. unfold allclose_rows. rewrite Nat.eqb_refl, all2_refl by apply allclose_refl. cbn [bind negb].
  rewrite T. cbn [bind]. rewrite TE, all2_refl by apply Z.eqb_refl. reflexivity.
Qed.
Theorem C32_data_reused : forall spglib cell atoms cv d symprec angle,
  get_spglib_data spglib cell atoms symprec angle = Ok d ->
  obtain_data spglib cell atoms (Data d) = Ok d /\
  (symprec = default_symprec -> angle = default_spglib_angle ->
   get_conventional spglib cell atoms cv (Data d) = get_conventional spglib cell atoms cv NoData).
Proof.
  intros spglib cell atoms cv d sp an H.
  assert (O : obtain_data spglib cell atoms (Data d) = Ok d /\ validate_atoms atoms ["positions"] true = Ok true).
  { unfold get_spglib_data in H. destruct spglib as [lib|]; [|discriminate].
    apply bind_ok in H. destruct H as (b & V & H).
    assert (V' : validate_atoms atoms ["positions"] true = Ok true).
    { destruct (validate_modes atoms ["positions"]) as [[A _]|[(e & A & _) _]]; [exact A|]. rewrite A in V. discriminate V. }
    apply bind_ok in H. destruct H as (pv & P & H). apply bind_ok in H. destruct H as (ps & PS & H).
    apply bind_ok in H. destruct H as (tv & T & H). cbv zeta in H.
    destruct (get_symmetry_dataset _ _ _ _ _ _); [|discriminate]. unbind H. unbind H.
    destruct (find_primitive _ _ _ _ _ _) as [[[? ?] ?]|]; [|discriminate]. injection H as <-.
    split; auto. eapply (obtain_own _ _ _ _ pv tv); cbn; auto.
    unfold getitem in P. destruct (lookup "positions" atoms); congruence. }
  destruct O as (O & V). split; auto. intros -> ->. unfold get_conventional. rewrite O.
  replace (obtain_data spglib cell atoms NoData) with (Ok d); [reflexivity|].
  unfold obtain_data. rewrite V. cbn [bind]. symmetry. exact H.
Qed.
Print Assumptions C32_data_reused.

(* ---- a concrete crystal for the hypotheses above ---- *)
Definition one_atom : atoms_dict :=
  [("names", PList [PStr "Fe1"]); ("positions", PList [PList [PInt 0; PInt 0; PInt 0]])].
Definition data_for (cell : mat) (family centring : string) : spglib_data :=
  SpglibData cell [vzero] [1%Z] (/ 100000) (-1) 16 family centring cell [vzero] [1%Z] cell [vzero] [1%Z].
Lemma one_atom_valid : validate_atoms one_atom ["positions"] true = Ok true.
Proof. reflexivity. Qed.
Lemma one_atom_types : get_spglib_types one_atom = Ok (PList [PInt 1]).
Proof. vm_compute. reflexivity. Qed.
Lemma one_atom_obtain spglib cell fa ce : obtain_data spglib cell one_atom (Data (data_for cell fa ce)) = Ok (data_for cell fa ce).
Proof.
  apply (obtain_own spglib cell one_atom (data_for cell fa ce) (PList [PList [PInt 0; PInt 0; PInt 0]]) (PList [PInt 1])).
  - apply one_atom_valid.
  - reflexivity.
  - reflexivity.
  - reflexivity.
  - apply one_atom_types.
  - reflexivity.
Qed.
Lemma one_atom_made ps : make_atoms (last_index [1%Z] 0) ps [1%Z] one_atom =
  Ok [("positions", pos_val ps); ("names", PList [PStr "Fe1"]); ("spglib_types", PList [PNpInt 1])].
Proof. reflexivity. Qed.
Example C32_case : forall cell, det cell <> 0 ->
  exists ps, get_conventional None cell one_atom "Sc" (Data (data_for cell "c" "P"))
    = Ok (cell, [("positions", pos_val ps); ("names", PList [PStr "Fe1"]); ("spglib_types", PList [PNpInt 1])]).
Proof.
  intros cell D. unfold get_conventional. rewrite one_atom_obtain. cbn [bind].
  change (conventional_structure (lib_niggli None) (data_for cell "c" "P") "Sc")
    with (do ps <- reexpress [vzero] cell cell; Ok (cell, ps, [1%Z])).
  unfold reexpress. rewrite (proj2 (minv_ok cell (minv_total cell)) (conj D eq_refl)). cbn [bind].
  eexists. change (original_types (data_for cell "c" "P")) with [1%Z]. rewrite one_atom_made. reflexivity.
Qed.

(* ================= C33: orthorhombic ================= *)
Lemma reexpress_err ps a b e : reexpress ps a b = Err e -> e = LinAlgError.
Proof.
  unfold reexpress. intros H. apply bind_err in H. destruct H as [H|(x & _ & H)]; [|discriminate].
  unfold minv in H. destruct (Reqb (det b) 0); congruence.
Qed.
Lemma mapM_err {A B} (f : A -> res B) l e : mapM f l = Err e -> exists x, In x l /\ f x = Err e.
Proof.
  induction l as [|x l IH]; cbn [mapM]; intros H; [discriminate|].
  apply bind_err in H. destruct H as [H|(y & Y & H)]; [exists x; cbn; auto|].
  apply bind_err in H. destruct H as [H|(ys & YS & H)]; [|discriminate].
  destruct (IH H) as (z & Z1 & Z2). exists z. cbn; auto.
Qed.
Lemma make_atoms_err mapping ps ts atoms e : make_atoms mapping ps ts atoms = Err e -> e = KeyError \/ e = IndexError.
Proof.
  unfold make_atoms. intros H. apply bind_err in H. destruct H as [H|(x & _ & H)]; [|discriminate].
  revert H. generalize [("positions", pos_val ps)]. induction atoms as [|[k v] atoms IH]; intros acc H; cbn [populate] in H; [discriminate|].
  destruct (String.eqb k "positions"); [eauto|]. apply bind_err in H. destruct H as [H|(l & _ & H)]; [|eauto].
  apply mapM_err in H. destruct H as (t & _ & H). destruct (mapping t); [|left; congruence].
  unfold py_item in H. destruct (nth_error (elements v) n); [discriminate|right; congruence].
Qed.
(* reduction of the public function to the SC helper *)
Lemma get_conventional_sc spglib cell atoms cv arg d :
  obtain_data spglib cell atoms arg = Ok d -> lower cv = "sc" -> starts_from_primitive d cv = false ->
  (forall c' new, get_conventional spglib cell atoms cv arg = Ok (c', new) ->
     sc_conventional_no_hR (conventional_cell d) (crystal_family d) (centring_type d) (spglib_angle_or_default d) = Ok c') /\
  (forall e, sc_conventional_no_hR (conventional_cell d) (crystal_family d) (centring_type d) (spglib_angle_or_default d) = Err e ->
     get_conventional spglib cell atoms cv arg = Err e) /\
  (get_conventional spglib cell atoms cv arg = Err PotentialBugError ->
   sc_conventional_no_hR (conventional_cell d) (crystal_family d) (centring_type d) (spglib_angle_or_default d) = Err PotentialBugError).
Proof.
  intros D E NP. unfold get_conventional. rewrite D. cbn [bind]. unfold conventional_structure. cbv zeta.
  unfold starts_from_primitive in NP. rewrite E in *.
  change (String.eqb "sc" "spglib" || String.eqb "sc" "hpkot") with false. change (String.eqb "sc" "sc") with true in *. cbv iota.
  cbn [andb] in NP. rewrite NP.
  destruct (sc_conventional_no_hR _ _ _ _) as [c|e].
  - cbn [bind]. split; [|split].
    + intros c' new H. apply bind_ok in H. destruct H as ([[? ?] ?] & H1 & H). unbind H1. unbind H. congruence.
    + discriminate.
    + intros H. exfalso. apply bind_err in H. destruct H as [H|([[? ?] ?] & H1 & H)].
      * apply bind_err in H. destruct H as [H|(ps & P & H)]; [|discriminate]. apply reexpress_err in H. discriminate.
      * apply bind_err in H. destruct H as [H|(new & P & H)]; [|discriminate]. apply make_atoms_err in H. destruct H; discriminate.
  - cbn [bind]. split; [|split]; intros; congruence.
Qed.

(* three pairwise different numbers *)
Definition all_different (a b c : R) := a <> b /\ b <> c /\ a <> c.
Lemma order_cases a b c :
  (all_different a b c /\ exists m, order_matrix a b c = Ok m) \/ (~ all_different a b c /\ order_matrix a b c = Err PotentialBugError).
Proof.
  unfold order_matrix, all_different.
  destruct (Rltb_spec a b), (Rltb_spec b c), (Rltb_spec a c), (Rltb_spec c b), (Rltb_spec b a), (Rltb_spec c a); cbn [andb];
    try (exfalso; lra); first [left; split; [lra|eexists; reflexivity] | right; split; [lra|reflexivity]].
Qed.
Lemma oPFI_ordered c c' : sc_conventional_oPFI c = Ok c' -> norm (row1 c') < norm (row2 c') < norm (row3 c').
Proof.
  unfold sc_conventional_oPFI. intros H. apply bind_ok in H. destruct H as (p & P & H).
  apply bind_ok in H. destruct H as (m & M & H). injection H as <-.
  apply get_params_inv in P. destruct P as (_ & ->). destruct c as [x y z]. cbn [params_val pa pb pc row1 row2 row3] in M.
  unfold order_matrix in M.
  assert (T1 : tapply (Zm (-1) 0 0  0 0 (-1)  0 (-1) 0) (M3 x y z) = M3 (vneg x) (vneg z) (vneg y)) by (unfold tapply; vring).
  assert (T2 : tapply (Zm 0 (-1) 0  (-1) 0 0  0 0 (-1)) (M3 x y z) = M3 (vneg y) (vneg x) (vneg z)) by (unfold tapply; vring).
  assert (T3 : tapply (Zm 0 0 (-1)  0 (-1) 0  (-1) 0 0) (M3 x y z) = M3 (vneg z) (vneg y) (vneg x)) by (unfold tapply; vring).
  revert M.
  destruct (Rltb_spec (norm x) (norm y)), (Rltb_spec (norm y) (norm z)), (Rltb_spec (norm x) (norm z)),
    (Rltb_spec (norm z) (norm y)), (Rltb_spec (norm y) (norm x)), (Rltb_spec (norm z) (norm x)); cbn [andb];
    intros M; try discriminate M; try (exfalso; lra); injection M as <-;
    rewrite ?tapply_eye, ?tapply_231, ?tapply_312, ?T1, ?T2, ?T3; cbn [row1 row2 row3]; rewrite ?norm_neg; lra.
Qed.
Lemma oC_ordered c c' : sc_conventional_oC c = Ok c' -> norm (row1 c') < norm (row2 c') /\ row3 c' = row3 c.
Proof.
  unfold sc_conventional_oC. intros H. apply bind_ok in H. destruct H as (p & P & H).
  apply bind_ok in H. destruct H as (m & M & H). injection H as <-.
  apply get_params_inv in P. destruct P as (_ & ->). destruct c as [x y z]. cbn [params_val pa pb row1 row2 row3] in M.
  revert M. destruct (Rltb_spec (norm x) (norm y)), (Rltb_spec (norm y) (norm x)); intros M; try discriminate M;
    injection M as <-; rewrite ?tapply_eye, ?tapply_rot_ab; cbn [row1 row2 row3]; rewrite ?norm_neg; auto.
Qed.

(* what is asked of an orthorhombic SC cell: increasing lengths; for a one-face centred lattice the
   centred face is the ab face, so only a and b can be exchanged *)
Definition one_face (centring : string) := centring = "C" \/ centring = "A".
Definition sc_orthorhombic (centring : string) (old c' : mat) : Prop :=
  (In centring ["P"; "F"; "I"] -> norm (row1 c') < norm (row2 c') < norm (row3 c')) /\
  (one_face centring -> norm (row1 c') < norm (row2 c')) /\
  (centring = "C" -> row3 c' = row3 old) /\
  (centring = "A" -> row3 c' = row1 old).
Lemma no_hR_o c ce e : sc_conventional_no_hR c "o" ce e =
  if mem ce ["P"; "F"; "I"] then sc_conventional_oPFI c
  else if String.eqb ce "C" then sc_conventional_oC c
  else if String.eqb ce "A" then sc_conventional_oC (tapply cyc_231 c) else Err PotentialBugError.
Proof. reflexivity. Qed.
Lemma start_not_h d cv fa : crystal_family d = fa -> fa <> "h" -> starts_from_primitive d cv = false.
Proof.
  intros E N. unfold starts_from_primitive. rewrite E. destruct (String.eqb_spec fa "h"); [contradiction|].
  rewrite andb_false_r. reflexivity.
Qed.
Theorem C33_ordered : forall spglib cell atoms cv arg d c' new,
  obtain_data spglib cell atoms arg = Ok d -> crystal_family d = "o" -> lower cv = "sc" ->
  get_conventional spglib cell atoms cv arg = Ok (c', new) ->
  sc_orthorhombic (centring_type d) (conventional_cell d) c'.
Proof.
  intros spglib cell atoms cv arg d c' new D F L H.
  destruct (get_conventional_sc _ _ _ _ _ _ D L (start_not_h _ _ _ F ltac:(discriminate))) as (A & _).
  apply A in H. rewrite F, no_hR_o in H. unfold sc_orthorhombic, one_face.
  destruct (mem (centring_type d) ["P"; "F"; "I"]) eqn:M.
  - apply oPFI_ordered in H. split; [auto|]. apply mem_true in M. cbn in M.
    split; [|split]; intros; exfalso; intuition congruence.
  - apply mem_false in M. split; [tauto|].
    destruct (String.eqb_spec (centring_type d) "C") as [E|E].
    + apply oC_ordered in H. split; [tauto|]. split; [tauto|]. intros; congruence.
    + destruct (String.eqb_spec (centring_type d) "A") as [E'|E']; [|discriminate].
      apply oC_ordered in H. destruct H as (H & R3). split; [auto|]. split; [tauto|].
      rewrite R3. destruct (conventional_cell d). rewrite tapply_231. auto.
Qed.
Print Assumptions C33_ordered.

(* The conversion of an orthorhombic crystal breaks down exactly when two of the lengths that have to
   be ordered are equal. *)
Definition lengths_to_order_differ (centring : string) (m : mat) : Prop :=
  (In centring ["P"; "F"; "I"] -> all_different (norm (row1 m)) (norm (row2 m)) (norm (row3 m))) /\
  (centring = "C" -> norm (row1 m) <> norm (row2 m)) /\
  (centring = "A" -> norm (row2 m) <> norm (row3 m)).
Lemma oC_cases c : big c ->
  (norm (row1 c) <> norm (row2 c) /\ exists m, sc_conventional_oC c = Ok m) \/
  (norm (row1 c) = norm (row2 c) /\ sc_conventional_oC c = Err PotentialBugError).
Proof.
  intros B. unfold sc_conventional_oC. rewrite get_params_val by auto. cbn [bind params_val pa pb].
  destruct (Rltb_spec (norm (row1 c)) (norm (row2 c))), (Rltb_spec (norm (row2 c)) (norm (row1 c))); cbn [bind];
   first [left; split; [lra|eexists; reflexivity] | right; split; [lra|reflexivity]].
Qed.
Theorem C33_fails_exactly_on_ties : forall spglib cell atoms cv arg d,
  obtain_data spglib cell atoms arg = Ok d -> crystal_family d = "o" -> lower cv = "sc" ->
  In (centring_type d) ["P"; "F"; "I"; "C"; "A"] -> big (conventional_cell d) ->
  (get_conventional spglib cell atoms cv arg = Err PotentialBugError <->
   ~ lengths_to_order_differ (centring_type d) (conventional_cell d)).
Proof.
  intros spglib cell atoms cv arg d D F L CE B.
  destruct (get_conventional_sc _ _ _ _ _ _ D L (start_not_h _ _ _ F ltac:(discriminate))) as (_ & A & C).
  rewrite F, no_hR_o in A, C. generalize dependent (get_conventional spglib cell atoms cv arg). intros G A C.
  assert (X : forall r : res mat, (forall e, r = Err e -> G = Err e) -> (G = Err PotentialBugError -> r = Err PotentialBugError) ->
    forall Q : Prop, ((Q /\ exists m, r = Ok m) \/ (~ Q /\ r = Err PotentialBugError)) -> (G = Err PotentialBugError <-> ~ Q)).
  { clear. intros r A C Q [(q & m & M)|(q & M)].
    - split; [intros H; apply C in H; congruence | tauto].
    - split; auto. }
  destruct (mem (centring_type d) ["P"; "F"; "I"]) eqn:M.
  - apply (X _ A C). pose proof M as M'. apply mem_true in M'.
    assert (NC : centring_type d <> "C" /\ centring_type d <> "A") by (cbn in M'; intuition congruence).
    unfold sc_conventional_oPFI. rewrite get_params_val by auto. cbn [bind params_val pa pb pc].
    destruct (order_cases (norm (row1 (conventional_cell d))) (norm (row2 (conventional_cell d))) (norm (row3 (conventional_cell d))))
      as [(Q & m & ->)|(Q & ->)]; cbn [bind]; unfold lengths_to_order_differ.
    + left. split; [tauto|eauto].
    + right. split; [tauto|reflexivity].
  - apply mem_false in M. destruct (String.eqb_spec (centring_type d) "C") as [E|E].
    + apply (X _ A C). unfold lengths_to_order_differ. rewrite E in *.
      destruct (oC_cases (conventional_cell d) B) as [(Q & m & ->)|(Q & ->)]; [left|right].
      * split; [|eauto]. split; [tauto|]. split; [auto|discriminate].
      * split; [|reflexivity]. intros (_ & H & _). exact (H eq_refl Q).
    + destruct (String.eqb_spec (centring_type d) "A") as [E'|E'].
      * apply (X _ A C). unfold lengths_to_order_differ. rewrite E' in *. destruct (conventional_cell d) as [x y z].
        rewrite tapply_231 in *.
        destruct (oC_cases (M3 y z x)) as [(Q & m & ->)|(Q & ->)]; [|left|right]; cbn [row1 row2 row3] in *.
        { destruct B as (B1 & B2 & B3). split; auto. }
        -- split; [|eauto]. split; [tauto|]. split; [discriminate|auto].
        -- split; [|reflexivity]. intros (_ & _ & H). exact (H eq_refl Q).
      * exfalso. cbn in CE, M. intuition congruence.
Qed.
Print Assumptions C33_fails_exactly_on_ties.
(* "Every orthorhombic crystal has an SC conventional cell" is false. *)
Lemma norm_axis x y z : 0 <= x -> 0 <= y -> 0 <= z ->
  norm (V3 x 0 0) = x /\ norm (V3 0 y 0) = y /\ norm (V3 0 0 z) = z.
Proof.
  intros. unfold norm, dot; cbn [vx vy vz].
  split; [|split]; (rewrite <- (sqrt_square) by assumption; f_equal; ring).
Qed.
Theorem C33_equal_lengths_refuted : exists cell atoms arg d,
  obtain_data None cell atoms arg = Ok d /\ crystal_family d = "o" /\ centring_type d = "P" /\
  det cell <> 0 /\ dot (row1 cell) (row2 cell) = 0 /\ dot (row1 cell) (row3 cell) = 0 /\ dot (row2 cell) (row3 cell) = 0 /\
  get_conventional None cell atoms "SC" arg = Err PotentialBugError.
Proof.
  set (c := mk 3 0 0 0 3 0 0 0 4). exists c, one_atom, (Data (data_for c "o" "P")), (data_for c "o" "P").
  split; [apply one_atom_obtain|]. do 2 (split; [reflexivity|]).
  split; [unfold c; vunfold; lra|]. do 3 (split; [unfold c; vunfold; lra|]).
  destruct (norm_axis 3 3 4) as (N1 & N2 & N3); try lra.
  eapply C33_fails_exactly_on_ties; [apply one_atom_obtain|reflexivity|reflexivity|cbn; auto| |].
  - unfold big. cbn [data_for conventional_cell c mk row1 row2 row3]. unfold c, mk; cbn [row1 row2 row3]. rewrite N1, N2, N3. unfold FLOAT_EPS. lra.
  - intros (H & _). cbn [data_for centring_type conventional_cell] in H. specialize (H (or_introl eq_refl)).
    unfold all_different, c, mk in H; cbn [row1 row2 row3] in H. rewrite N1, N2 in H. tauto.
Qed.
Print Assumptions C33_equal_lengths_refuted.
Example C33_case : exists new,
  get_conventional None (mk 0 5 0 3 0 0 0 0 (-4)) one_atom "SC" (Data (data_for (mk 0 5 0 3 0 0 0 0 (-4)) "o" "I"))
    = Ok (mk 3 0 0 0 0 (-4) 0 5 0, new).
Proof.
  set (c := mk 0 5 0 3 0 0 0 0 (-4)).
  unfold get_conventional. rewrite one_atom_obtain. cbn [bind].
  change (conventional_structure (lib_niggli None) (data_for c "o" "I") "SC")
    with (do c' <- sc_conventional_oPFI c; do ps <- reexpress [vzero] c c'; Ok (c', ps, [1%Z])).
  destruct (norm_axis 3 5 4) as (N1 & N2 & N3); try lra.
  assert (N3' : norm (V3 0 0 (-4)) = 4) by (replace (V3 0 0 (-4)) with (vneg (V3 0 0 4)) by vring; rewrite norm_neg; exact N3).
  assert (B : big c) by (unfold big, c, mk; cbn [row1 row2 row3]; rewrite N1, N2, N3'; unfold FLOAT_EPS; lra).
  assert (E : sc_conventional_oPFI c = Ok (mk 3 0 0 0 0 (-4) 0 5 0)).
  { unfold sc_conventional_oPFI. rewrite get_params_val by auto. cbn [bind params_val pa pb pc].
    unfold c, mk; cbn [row1 row2 row3]. rewrite N1, N2, N3'. unfold order_matrix.
    destruct (Rltb_spec 5 3), (Rltb_spec 3 4), (Rltb_spec 5 4), (Rltb_spec 4 3), (Rltb_spec 3 5), (Rltb_spec 4 5); try (exfalso; lra).
    cbn [andb bind]. rewrite tapply_231. reflexivity. }
  rewrite E. cbn [bind]. unfold reexpress.
  assert (D : det (mk 3 0 0 0 0 (-4) 0 5 0) <> 0) by (vunfold; lra).
  rewrite (proj2 (minv_ok _ _) (conj D eq_refl)). cbn [bind].
  change (original_types (data_for c "o" "I")) with [1%Z]. rewrite one_atom_made. cbn [bind]. eauto.
Qed.
