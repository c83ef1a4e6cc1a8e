(* P_SpglibData.v : property C59, the data object returned by get_spglib_data *)
From Verif Require Import Base M_Numerical M_Geometry M_Cell M_Niggli M_Strings M_Dict T_Atoms T_Tables M_Atoms M_Spglib M_Conventional M_Primitive
  M_Variation M_Path F_Geometry F_Atoms F_Conventional F_Voronoi S_Crystal F_Primitive P_Atoms P_Conventional P_Primitive P_Variation.
Open Scope string_scope.
Open Scope list_scope.
Open Scope R_scope.

(* ---- specification ---- *)
(* the number that a python object stands for *)
Inductive number : pyval -> R -> Prop :=
| number_int z : number (PInt z) (IZR z)
| number_numpy z : number (PNpInt z) (IZR z)
| number_true : number (PBool true) 1
| number_false : number (PBool false) 0
| number_float r : number (PFloat r) r.
Definition triple (v : pyval) (p : vec) : Prop :=
  exists a b c, v = PList [a; b; c] /\ number a (vx p) /\ number b (vy p) /\ number c (vz p).
Inductive type_number : pyval -> Z -> Prop :=
| type_int z : type_number (PInt z) z
| type_true : type_number (PBool true) 1.
(* the positions and types of an atoms dictionary *)
Definition has_positions (atoms : atoms_dict) (ps : list vec) : Prop :=
  exists rows, lookup "positions" atoms = Some (PList rows) /\ Forall2 triple rows ps.
Definition has_types (atoms : atoms_dict) (ts : list Z) : Prop :=
  exists v, get_spglib_types atoms = Ok v /\ Forall2 type_number (elements v) ts.

(* ---- proofs ---- *)
Lemma to_float_spec v r : to_float v = Ok r <-> number v r.
Proof.
  split.
  - destruct v as [z|b|z|x|s| |l]; cbn; intros H; try discriminate; try destruct b; injection H as <-; constructor.
  - intros H; destruct H; reflexivity.
Qed.
Lemma to_row_spec v p : to_row v = Ok p <-> triple v p.
Proof.
  split.
  - destruct v as [| | | | | |l]; try discriminate. destruct l as [|a [|b [|c [|]]]]; try discriminate. cbn [to_row]. intros H.
    apply bind_ok in H. destruct H as (x & X & H). apply bind_ok in H. destruct H as (y & Y & H). apply bind_ok in H. destruct H as (z & Z & H).
    injection H as <-. exists a, b, c. rewrite <- !to_float_spec. auto.
  - intros (a & b & c & -> & A & B & C). apply to_float_spec in A, B, C. cbn [to_row]. rewrite A, B, C. destruct p. reflexivity.
Qed.
Lemma mapM_iff {A B} (f : A -> res B) l r : mapM f l = Ok r <-> Forall2 (fun x y => f x = Ok y) l r.
Proof.
  split.
  - revert r. induction l as [|x l IH]; cbn; intros r H; [injection H as <-; constructor|].
    apply bind_ok in H. destruct H as (y & Y & H). apply bind_ok in H. destruct H as (t & T & H). injection H as <-. constructor; auto.
  - induction 1 as [|x y l r E F IH]; cbn; [reflexivity|]. rewrite E, IH. reflexivity.
Qed.
Lemma F2_impl {A B} (P Q : A -> B -> Prop) l m : (forall x y, P x y -> Q x y) -> Forall2 P l m -> Forall2 Q l m.
Proof. intros H F. induction F; constructor; auto. Qed.
Lemma positions_spec v ps : positions_of v = Ok ps <-> Forall2 triple (elements v) ps.
Proof.
  unfold positions_of. rewrite mapM_iff. split; intros H; (eapply F2_impl; [|exact H]); intros; apply to_row_spec; auto.
Qed.
Lemma valid_positions atoms : valid_atoms atoms ["positions"] -> exists rows, lookup "positions" atoms = Some (PList rows) /\ rows <> [].
Proof.
  intros V. destruct (va_required _ _ V "positions") as (v & L); [left; reflexivity|].
  destruct (va_positions _ _ V v L) as (rows & -> & N & _). eauto.
Qed.
Lemma types_ints atoms tv : validate_atoms atoms [] true = Ok true -> get_spglib_types atoms = Ok tv -> Forall2 type_number (elements tv) (ints tv).
Proof.
  intros V T. assert (A : Forall is_int_ge1 (elements tv)).
  { destruct (C30_rules atoms V) as (R1 & R2 & R3 & R4). apply C29_accepts_exactly_valid in V.
    destruct (lookup "spglib_types" atoms) as [v|] eqn:L1.
    - rewrite (R1 _ eq_refl) in T. injection T as <-. apply Forall_forall. intros x X. apply in_elements in X. exact (va_types _ _ V _ _ L1 X).
    - destruct (lookup "species" atoms) as [v|] eqn:L2.
      + destruct (R2 eq_refl _ eq_refl) as (ts & E & F). rewrite E in T. injection T as <-. apply Forall_forall. apply (C30_result_is_valid _ _ F).
      + destruct (lookup "names" atoms) as [v|] eqn:L3.
        * destruct (R3 eq_refl eq_refl _ eq_refl) as (ts & E & F). rewrite E in T. injection T as <-. apply Forall_forall. apply (C30_result_is_valid _ _ F).
        * rewrite R4 in T by auto. discriminate. }
  unfold ints. induction A as [|x l X A IH]; cbn; constructor; auto.
  destruct X as [(z & -> & _)|E]; [|subst x]; constructor.
Qed.

Lemma valid_weaken atoms req : valid_atoms atoms req -> valid_atoms atoms [].
Proof. intros [A B C D F G]. constructor; auto. intros k []. Qed.
Lemma types_valid atoms tv : valid_atoms atoms ["positions"] -> get_spglib_types atoms = Ok tv -> Forall2 type_number (elements tv) (ints tv).
Proof. intros V. apply types_ints. apply C29_accepts_exactly_valid. eapply valid_weaken; eauto. Qed.
Lemma type_number_fun v a b : type_number v a -> type_number v b -> a = b.
Proof. intros A B. destruct A; inversion B; auto. Qed.
Lemma types_are v ts : Forall2 type_number (elements v) ts -> ints v = ts.
Proof. unfold ints. induction 1 as [|x z l r X F IH]; cbn; [reflexivity|]. destruct X; cbn; congruence. Qed.
Lemma getitem_some {A} k (d : dict A) v : lookup k d = Some v -> getitem k d = Ok v.
Proof. unfold getitem. intros ->. reflexivity. Qed.

(* Each row of the matrix m turned by the rotation r (row vectors). *)
Definition turned (m r : mat) : mat := M3 (vmat (row1 m) r) (vmat (row2 m) r) (vmat (row3 m) r).

Lemma family_unique n f g : family_of n f -> family_of n g -> f = g.
Proof.
  intros (I & A1 & A2 & A3 & A4 & A5 & A6) (_ & B1 & B2 & B3 & B4 & B5 & B6). cbn in I.
  decompose [or] I; subst; try contradiction; symmetry; tauto.
Qed.
Lemma centring_unique n f g : centring_of n f -> centring_of n g -> f = g.
Proof.
  intros (I & A1 & A2 & A3 & A4 & A5) (J & B1 & B2 & B3 & B4 & B5). unfold centrings in I, J. cbn in I, J.
  destruct I as [<-|[<-|[<-|[<-|[<-|[<-|[]]]]]]]; try (symmetry; tauto).
  destruct J as [<-|[<-|[<-|[<-|[<-|[<-|[]]]]]]]; try reflexivity; exfalso.
  - assert (X : "P" = "F") by tauto. discriminate X.
  - assert (X : "P" = "I") by tauto. discriminate X.
  - assert (X : "P" = "A") by tauto. discriminate X.
  - assert (X : "P" = "C") by tauto. discriminate X.
  - assert (X : "P" = "R") by tauto. discriminate X.
Qed.

(* ---- C59 ---- *)
(* What the data object holds: the given crystal, the answers of the library for exactly that
   crystal and those tolerances, and the letters of the space group. *)
Theorem C59_contents : forall lib cell atoms sp an d,
  get_spglib_data (Some lib) cell atoms sp an = Ok d <->
  valid_atoms atoms ["positions"] /\
  exists ps ts ds pcell pps pts f c,
    has_positions atoms ps /\ has_types atoms ts /\
    get_symmetry_dataset lib cell ps ts sp an = Some ds /\
    find_primitive lib cell ps ts sp an = Some (pcell, pps, pts) /\
    (1 <= ds_number ds <= 230)%Z /\ family_of (ds_number ds) f /\ centring_of (ds_number ds) c /\
    d = {| original_cell := cell; original_positions := ps; original_types := ts; symprec := sp; angle_tolerance := an;
           space_group_number := ds_number ds; crystal_family := f; centring_type := c;
           conventional_cell := turned (ds_std_lattice ds) (ds_std_rotation_matrix ds);
           conventional_positions := ds_std_positions ds; conventional_types := ds_std_types ds;
           primitive_cell := turned pcell (ds_std_rotation_matrix ds);
           primitive_positions := pps; primitive_types := pts |}.
Proof.
  intros lib cell atoms sp an d. split.
  - intros H. pose proof (C41_data_consistent _ _ _ _ _ _ H) as ((FF & CC) & RG & _).
    unfold get_spglib_data in H. apply bind_ok in H. destruct H as (b & V & H).
    assert (V' : validate_atoms atoms ["positions"] true = Ok true).
    { destruct (validate_modes atoms ["positions"]) as [[A _]|[(e & A & _) _]]; [exact A|]. rewrite A in V. discriminate V. }
    apply C29_accepts_exactly_valid in V'. split; [exact V'|].
    apply bind_ok in H. destruct H as (pv & P & H). apply bind_ok in H. destruct H as (ps & PS & H).
    apply bind_ok in H. destruct H as (tv & T & H). cbv zeta in H.
    destruct (get_symmetry_dataset _ _ _ _ _ _) as [ds|] eqn:DS; [|discriminate].
    apply bind_ok in H. destruct H as (f & F & H). apply bind_ok in H. destruct H as (c & C & H).
    destruct (find_primitive _ _ _ _ _ _) as [[[pcell pps] pts]|] eqn:FP; [|discriminate]. injection H as <-.
    cbn [space_group_number crystal_family centring_type] in FF, CC, RG.
    destruct (valid_positions _ V') as (rows & L & _). rewrite (getitem_some _ _ _ L) in P. injection P as <-.
    destruct (C41_tables _ RG) as (f' & c' & b' & F' & C' & _ & FO & CO & _).
    assert (f' = f) by congruence. assert (c' = c) by congruence. subst f' c'.
    exists ps, (ints tv), ds, pcell, pps, pts, f, c.
    split; [exists rows; split; [exact L|]; apply (positions_spec (PList rows)); exact PS|].
    split; [exists tv; split; [exact T|]; apply types_valid with atoms; auto|].
    split; [exact DS|]. split; [exact FP|]. split; [exact RG|]. split; [exact FO|]. split; [exact CO|]. reflexivity.
  - intros (V & ps & ts & ds & pcell & pps & pts & f & c & (rows & L & HP) & (tv & T & HT) & DS & FP & RG & FO & CO & ->).
    unfold get_spglib_data. rewrite (proj2 (C29_accepts_exactly_valid atoms ["positions"] true) V). cbn [bind].
    rewrite (getitem_some _ _ _ L). cbn [bind]. rewrite (proj2 (positions_spec (PList rows) ps) HP). cbn [bind].
    rewrite T. cbn [bind]. cbv zeta. rewrite (types_are _ _ HT), DS, FP.
    destruct (C41_tables _ RG) as (f' & c' & b' & F' & C' & _ & FO' & CO' & _).
    unfold zgetitem. rewrite F', C'. cbn [bind].
    rewrite (family_unique _ _ _ FO' FO), (centring_unique _ _ _ CO' CO). reflexivity.
Qed.
Print Assumptions C59_contents.

(* Every way to fail. *)
Theorem C59_failures : forall spglib cell atoms sp an e,
  get_spglib_data spglib cell atoms sp an = Err e <->
  (spglib = None /\ e = ImportError) \/
  exists lib, spglib = Some lib /\
    ((~ valid_atoms atoms ["positions"] /\ validate_atoms atoms ["positions"] true = Err e) \/
     (valid_atoms atoms ["positions"] /\
      ((~ (exists ps, has_positions atoms ps) /\ exists v, lookup "positions" atoms = Some v /\ positions_of v = Err e) \/
       exists ps, has_positions atoms ps /\
       ((lookup "names" atoms = None /\ lookup "species" atoms = None /\ lookup "spglib_types" atoms = None /\ e = ValueError) \/
        exists ts, has_types atoms ts /\
        ((get_symmetry_dataset lib cell ps ts sp an = None /\ e = RuntimeError) \/
         exists ds, get_symmetry_dataset lib cell ps ts sp an = Some ds /\
         ((~ (1 <= ds_number ds <= 230)%Z /\ e = KeyError) \/
          ((1 <= ds_number ds <= 230)%Z /\ find_primitive lib cell ps ts sp an = None /\ e = TypeError))))))).
Proof.
  intros spglib cell atoms sp an e. destruct spglib as [lib|].
  2:{ cbn. split; [intros H; injection H as <-; left; auto|]. intros [(_ & ->)|(lib & H & _)]; [reflexivity|discriminate]. }
  unfold get_spglib_data.
  assert (S1 : (validate_atoms atoms ["positions"] true = Ok true /\ valid_atoms atoms ["positions"]) \/
               ((exists e0, validate_atoms atoms ["positions"] true = Err e0) /\ ~ valid_atoms atoms ["positions"])).
  { destruct (validate_modes atoms ["positions"]) as [[A _]|[(e0 & A & _) _]].
    - left. split; auto. apply C29_accepts_exactly_valid with (raise_errors := true). exact A.
    - right. split; [eauto|]. intros V. apply C29_accepts_exactly_valid with (raise_errors := true) in V. congruence. }
  destruct S1 as [(V & VA)|((e0 & V) & VA)]; rewrite V; cbn [bind].
  2:{ split.
      - intros H. injection H as <-. right. exists lib. split; [reflexivity|]. left. auto.
      - intros [(H & _)|(lib' & _ & [(_ & H)|(H & _)])]; [discriminate|congruence|contradiction]. }
  destruct (valid_positions _ VA) as (rows & L & _). rewrite (getitem_some _ _ _ L). cbn [bind].
  destruct (positions_of (PList rows)) as [ps|e1] eqn:PS; cbn [bind].
  2:{ assert (NP : ~ exists ps, has_positions atoms ps).
      { intros (ps & rows' & L' & HP). rewrite L in L'. injection L' as <-. apply (positions_spec (PList rows)) in HP. congruence. }
      split.
      - intros H. injection H as <-. right. exists lib. split; [reflexivity|]. right. split; [exact VA|]. left. split; [exact NP|].
        exists (PList rows). auto.
      - intros [(H & _)|(lib' & _ & [(H & _)|(_ & [(_ & v & L' & H)|(ps & HP & _)])])]; try discriminate; try contradiction.
        + rewrite L in L'. injection L' as <-. congruence.
        + destruct NP. eauto. }
  assert (HP : has_positions atoms ps) by (exists rows; split; [exact L|]; apply (positions_spec (PList rows)); exact PS).
  assert (UP : forall ps', has_positions atoms ps' -> ps' = ps).
  { intros ps' (rows' & L' & HP'). rewrite L in L'. injection L' as <-. apply (positions_spec (PList rows)) in HP'. congruence. }
  destruct (C30_rules atoms) as (R1 & R2 & R3 & R4).
  { apply C29_accepts_exactly_valid. eapply valid_weaken; eauto. }
  assert (T : (exists tv, get_spglib_types atoms = Ok tv) \/
              (get_spglib_types atoms = Err ValueError /\ lookup "names" atoms = None /\ lookup "species" atoms = None /\ lookup "spglib_types" atoms = None)).
  { destruct (lookup "spglib_types" atoms) as [v|]; [left; eauto|]. destruct (lookup "species" atoms) as [v|].
    - destruct (R2 eq_refl _ eq_refl) as (ts & E & _). left; eauto.
    - destruct (lookup "names" atoms) as [v|]; [destruct (R3 eq_refl eq_refl _ eq_refl) as (ts & E & _); left; eauto|]. right. auto. }
  destruct T as [(tv & T)|(T & N1 & N2 & N3)]; rewrite T; cbn [bind].
  2:{ split.
      - intros H. injection H as <-. right. exists lib. split; [reflexivity|]. right. split; [exact VA|]. right. exists ps. split; [exact HP|]. left. auto.
      - intros [(H & _)|(lib' & _ & [(H & _)|(_ & [(H & _)|(ps' & _ & [(_ & _ & _ & ->)|(ts & (tv & H & _) & _)])])])]; try discriminate; try contradiction.
        + destruct H. eauto.
        + reflexivity.
        + congruence. }
  cbv zeta. assert (HT : has_types atoms (ints tv)) by (exists tv; split; [exact T|]; apply types_valid with atoms; auto).
  assert (UT : forall ts', has_types atoms ts' -> ts' = ints tv).
  { intros ts' (tv' & T' & F'). rewrite T in T'. injection T' as <-. symmetry. apply types_are; auto. }
  assert (NN : ~ (lookup "names" atoms = None /\ lookup "species" atoms = None /\ lookup "spglib_types" atoms = None)).
  { intros (A & B & C). rewrite R4 in T by auto. discriminate. }
  set (Q := (get_symmetry_dataset lib cell ps (ints tv) sp an = None /\ e = RuntimeError) \/
         exists ds, get_symmetry_dataset lib cell ps (ints tv) sp an = Some ds /\
         ((~ (1 <= ds_number ds <= 230)%Z /\ e = KeyError) \/
          ((1 <= ds_number ds <= 230)%Z /\ find_primitive lib cell ps (ints tv) sp an = None /\ e = TypeError))).
  transitivity Q.
  - unfold Q. clear Q. destruct (get_symmetry_dataset lib cell ps (ints tv) sp an) as [ds|].
    2:{ split; [intros H; injection H as <-; left; auto|]. intros [(_ & ->)|(ds & H & _)]; [reflexivity|discriminate]. }
    assert (RG : (1 <= ds_number ds <= 230)%Z \/ ~ (1 <= ds_number ds <= 230)%Z) by lia.
    unfold zgetitem. destruct RG as [RG|RG].
    + destruct (C41_tables _ RG) as (f & c & b & F & C & _). rewrite F, C. cbn [bind].
      destruct (find_primitive lib cell ps (ints tv) sp an) as [[[pc pp] pt]|].
      * split; [discriminate|]. intros [(H & _)|(ds' & E & [(H & _)|(_ & H & _)])]; try discriminate. injection E as <-. contradiction.
      * split; [intros H; injection H as <-; right; exists ds; split; [reflexivity|]; right; auto|].
        intros [(H & _)|(ds' & E & [(H & _)|(_ & _ & ->)])]; try discriminate; try reflexivity. injection E as <-. contradiction.
    + destruct (C41_no_other_groups _ RG) as (F & _). rewrite F. cbn [bind].
      split; [intros H; injection H as <-; right; exists ds; split; [reflexivity|]; left; auto|].
      intros [(H & _)|(ds' & E & [(_ & ->)|(H & _)])]; try discriminate; try reflexivity. injection E as <-. contradiction.
  - unfold Q. clear Q. split.
    + intros H. right. exists lib. split; [reflexivity|]. right. split; [exact VA|]. right. exists ps. split; [exact HP|]. right.
      exists (ints tv). split; [exact HT|]. exact H.
    + intros [(H & _)|(lib' & EL & [(H & _)|(_ & [(H & _)|(ps' & HP' & [(A & B & C & _)|(ts & HT' & H)])])])]; try discriminate; try contradiction.
      * destruct H. eauto.
      * destruct NN. auto.
      * injection EL as <-. rewrite (UP _ HP'), (UT _ HT') in H. exact H.
Qed.
Print Assumptions C59_failures.

(* spglib's standardized cells are turned: std_lattice = L r^T for the cell L in the orientation of
   the input, with r orthogonal.  The data holds L itself. *)
Theorem C59_orientation : forall lib cell atoms sp an d, get_spglib_data (Some lib) cell atoms sp an = Ok d ->
  exists ds pcell pps pts,
    get_symmetry_dataset lib cell (original_positions d) (original_types d) sp an = Some ds /\
    find_primitive lib cell (original_positions d) (original_types d) sp an = Some (pcell, pps, pts) /\
    forall l, mmul (tr (ds_std_rotation_matrix ds)) (ds_std_rotation_matrix ds) = mid ->
      (ds_std_lattice ds = mmul l (tr (ds_std_rotation_matrix ds)) -> conventional_cell d = l) /\
      (pcell = mmul l (tr (ds_std_rotation_matrix ds)) -> primitive_cell d = l).
Proof.
  intros lib cell atoms sp an d H. apply C59_contents in H.
  destruct H as (_ & ps & ts & ds & pcell & pps & pts & f & c & _ & _ & DS & FP & _ & _ & _ & ->). cbn.
  exists ds, pcell, pps, pts. split; [exact DS|]. split; [exact FP|]. intros l O.
  assert (X : forall m, turned (mmul m (tr (ds_std_rotation_matrix ds))) (ds_std_rotation_matrix ds) = m).
  { intros m. change (mmul (mmul m (tr (ds_std_rotation_matrix ds))) (ds_std_rotation_matrix ds) = m). rewrite mmul_assoc, O. destruct m as [[] [] []]. vring. }
  split; intros ->; apply X.
Qed.
Print Assumptions C59_orientation.

(* The functions that take a crystal and, optionally, its data. *)
Definition same_for_all (l l' : option spglib_module) (cell : mat) (atoms : atoms_dict) (a a' : data_arg) : Prop :=
  (forall cv, get_conventional l cell atoms cv a = get_conventional l' cell atoms cv a') /\
  (forall cv, get_primitive l cell atoms cv a = get_primitive l' cell atoms cv a') /\
  sc_get_variation l cell atoms a = sc_get_variation l' cell atoms a' /\
  hpkot_get_extended_bl_symbol l cell atoms a = hpkot_get_extended_bl_symbol l' cell atoms a' /\
  (forall cv tr rel, get_path_and_points l cell atoms a cv tr rel = get_path_and_points l' cell atoms a' cv tr rel) /\
  (forall cv tr n, from_crystal l cell atoms cv tr n a = from_crystal l' cell atoms cv tr n a').
Definition all_fail (l : option spglib_module) (cell : mat) (atoms : atoms_dict) (a : data_arg) (e : exn) : Prop :=
  (forall cv, get_conventional l cell atoms cv a = Err e) /\
  (forall cv, get_primitive l cell atoms cv a = Err e) /\
  sc_get_variation l cell atoms a = Err e /\
  hpkot_get_extended_bl_symbol l cell atoms a = Err e /\
  (forall cv tr rel, get_path_and_points l cell atoms a cv tr rel = Err e) /\
  (forall cv tr n, from_crystal l cell atoms cv tr n a = Err e).
Lemma obtained_fail l cell atoms a e : obtain_data l cell atoms a = Err e -> all_fail l cell atoms a e.
Proof.
  intros O. assert (P : forall cv tr rel, get_path_and_points l cell atoms a cv tr rel = Err e) by (intros; unfold get_path_and_points; rewrite O; reflexivity).
  repeat split; intros; unfold get_conventional, get_primitive, sc_get_variation, hpkot_get_extended_bl_symbol, from_crystal; rewrite ?O, ?P; auto.
Qed.
Lemma obtained_same l l' cell atoms a a' : lib_niggli l = lib_niggli l' ->
  (forall d, obtain_data l cell atoms (Data d) = obtain_data l' cell atoms (Data d)) ->
  obtain_data l cell atoms a = obtain_data l' cell atoms a' -> same_for_all l l' cell atoms a a'.
Proof.
  intros N D O.
  assert (C0 : forall b b', obtain_data l cell atoms b = obtain_data l' cell atoms b' ->
    forall cv, get_conventional l cell atoms cv b = get_conventional l' cell atoms cv b').
  { intros b b' E cv. unfold get_conventional. rewrite E, N. reflexivity. }
  assert (CD : forall d cv, get_conventional l cell atoms cv (Data d) = get_conventional l' cell atoms cv (Data d)).
  { intros d cv. apply C0, D. }
  assert (P0 : forall b b', obtain_data l cell atoms b = obtain_data l' cell atoms b' ->
    forall cv, get_primitive l cell atoms cv b = get_primitive l' cell atoms cv b').
  { intros b b' E cv. unfold get_primitive, primitive_structure. rewrite E. destruct (obtain_data l' cell atoms b'); cbn [bind]; [|reflexivity].
    rewrite CD. reflexivity. }
  assert (PD : forall d cv, get_primitive l cell atoms cv (Data d) = get_primitive l' cell atoms cv (Data d)).
  { intros d cv. apply P0, D. }
  assert (V0 : forall b b', obtain_data l cell atoms b = obtain_data l' cell atoms b' ->
    sc_get_variation l cell atoms b = sc_get_variation l' cell atoms b').
  { intros b b' E. unfold sc_get_variation. rewrite E. destruct (obtain_data l' cell atoms b') as [d|]; cbn [bind]; [|reflexivity].
    rewrite CD. rewrite PD. reflexivity. }
  assert (H0 : forall b b', obtain_data l cell atoms b = obtain_data l' cell atoms b' ->
    hpkot_get_extended_bl_symbol l cell atoms b = hpkot_get_extended_bl_symbol l' cell atoms b').
  { intros b b' E. unfold hpkot_get_extended_bl_symbol. rewrite E. destruct (obtain_data l' cell atoms b') as [d|]; cbn [bind]; [|reflexivity].
    rewrite CD. reflexivity. }
  assert (G0 : forall cv tr rel, get_path_and_points l cell atoms a cv tr rel = get_path_and_points l' cell atoms a' cv tr rel).
  { intros cv tr rel. unfold get_path_and_points. rewrite O. destruct (obtain_data l' cell atoms a') as [d|]; cbn [bind]; [|reflexivity].
    rewrite CD, PD, (V0 (Data d) (Data d)), (H0 (Data d) (Data d)) by apply D. reflexivity. }
  split; [apply C0; auto|]. split; [apply P0; auto|]. split; [apply V0; auto|]. split; [apply H0; auto|]. split; [exact G0|].
  intros cv tr n. unfold from_crystal. rewrite G0. reflexivity.
Qed.
Lemma data_no_lib l l' cell atoms d : obtain_data l cell atoms (Data d) = obtain_data l' cell atoms (Data d).
Proof. reflexivity. Qed.

(* Data computed for the crystal (default tolerances) and passed on gives the same results as letting
   each function compute it. *)
Theorem C59_reused : forall spglib cell atoms d,
  get_spglib_data spglib cell atoms default_symprec default_spglib_angle = Ok d ->
  same_for_all spglib spglib cell atoms (Data d) NoData.
Proof.
  intros l cell atoms d H. apply obtained_same; auto.
  destruct (C32_data_reused l cell atoms "SC" d _ _ H) as (O & _). rewrite O. unfold obtain_data.
  assert (V : validate_atoms atoms ["positions"] true = Ok true).
  { destruct l as [lib|]; [|discriminate]. apply C29_accepts_exactly_valid. apply C59_contents in H. apply H. }
  rewrite V. cbn [bind]. congruence.
Qed.
Print Assumptions C59_reused.
(* The default tolerances, in numbers. *)
Theorem C59_defaults : forall spglib cell atoms d cv r,
  get_conventional spglib cell atoms cv NoData = Ok r ->
  get_spglib_data spglib cell atoms (1 / 10 ^ 5) (-1) = Ok d ->
  get_conventional spglib cell atoms cv (Data d) = Ok r.
Proof.
  intros l cell atoms d cv r R H. replace (1 / 10 ^ 5) with default_symprec in H by (unfold default_symprec; lra).
  destruct (C59_reused l cell atoms d H) as (C & _). rewrite C. exact R.
Qed.
Print Assumptions C59_defaults.

(* Data given by the caller is compared with the crystal: every number up to 1e-8 + 1e-5 |y|, types exactly. *)
Definition near1 (x y : R) : Prop := Rabs (x - y) <= 1 / 10 ^ 8 + Rabs y / 10 ^ 5.
Definition near (u w : vec) : Prop := near1 (vx u) (vx w) /\ near1 (vy u) (vy w) /\ near1 (vz u) (vz w).
Definition of_crystal (d : spglib_data) (cell : mat) (ps : list vec) (ts : list Z) : Prop :=
  near (row1 cell) (row1 (original_cell d)) /\ near (row2 cell) (row2 (original_cell d)) /\ near (row3 cell) (row3 (original_cell d)) /\
  Forall2 near ps (original_positions d) /\ ts = original_types d.
Lemma near_spec u w : allclose u w = true <-> near u w.
Proof.
  assert (N1 : forall x y, close1 x y = true <-> near1 x y).
  { intros x y. unfold close1, near1. rewrite Rleb_true.
    replace (1 / 10 ^ 8 + Rabs y / 10 ^ 5) with (/ 100000000 + / 100000 * Rabs y) by lra. reflexivity. }
  unfold allclose, near. rewrite !andb_true_iff, !N1. tauto.
Qed.
Lemma all2_near ps qs : all2 allclose ps qs = true <-> Forall2 near ps qs.
Proof.
  revert qs. induction ps as [|p ps IH]; intros [|q qs]; cbn; split; intros H; try discriminate; try (inversion H; fail); try constructor.
  - apply andb_true_iff in H. apply near_spec. tauto.
  - apply andb_true_iff in H. apply IH. tauto.
  - inversion H; subst. apply andb_true_iff. rewrite near_spec, IH. auto.
Qed.
Lemma all2_Z l l' : all2 Z.eqb l l' = true <-> l = l'.
Proof. split; [apply all2_eq|]. intros ->. apply all2_refl. apply Z.eqb_refl. Qed.
Theorem C59_checked : forall spglib cell atoms d ps ts,
  valid_atoms atoms ["positions"] -> has_positions atoms ps -> has_types atoms ts -> length ps = length ts ->
  length (original_positions d) = length (original_types d) ->
  (of_crystal d cell ps ts ->
     obtain_data spglib cell atoms (Data d) = Ok d /\
     forall spglib', lib_niggli spglib' = lib_niggli spglib -> same_for_all spglib spglib' cell atoms (Data d) (Data d)) /\
  (~ of_crystal d cell ps ts -> all_fail spglib cell atoms (Data d) ValueError).
Proof.
  intros l cell atoms d ps ts V (rows & L & HP) (tv & T & HT) LP LD.
  assert (K : (of_crystal d cell ps ts /\ obtain_data l cell atoms (Data d) = Ok d) \/
              (~ of_crystal d cell ps ts /\ obtain_data l cell atoms (Data d) = Err ValueError)).
  { unfold obtain_data. rewrite (proj2 (C29_accepts_exactly_valid atoms ["positions"] true) V). cbn [bind].
    unfold validate_spglib_data, of_crystal. destruct (allclose_mat cell (original_cell d)) eqn:E; cbn [negb].
    2:{ right. split; [|reflexivity]. intros (A & B & C & _). apply near_spec in A, B, C. unfold allclose_mat in E. rewrite A, B, C in E. discriminate. }
    unfold allclose_mat in E. apply andb_true_iff in E. destruct E as (E & E3). apply andb_true_iff in E. destruct E as (E1 & E2).
    apply near_spec in E1, E2, E3.
    rewrite (getitem_some _ _ _ L). cbn [bind]. rewrite (proj2 (positions_spec (PList rows) ps) HP). cbn [bind].
    rewrite T. cbn [bind]. rewrite (types_are _ _ HT). unfold allclose_rows.
    destruct (Nat.eqb (length ps) (length (original_positions d))) eqn:LE.
    - cbn [bind]. destruct (all2 allclose ps (original_positions d)) eqn:A; cbn [negb].
      + apply all2_near in A. destruct (all2 Z.eqb ts (original_types d)) eqn:Z; cbn [negb bind].
        * apply all2_Z in Z. left. auto 8.
        * right. split; [|reflexivity]. intros (_ & _ & _ & _ & B). apply all2_Z in B. congruence.
      + right. split; [|reflexivity]. intros (_ & _ & _ & B & _). apply all2_near in B. congruence.
    - apply Nat.eqb_neq in LE. right. split.
      { intros (_ & _ & _ & B & _). apply Forall2_len in B. contradiction. }
      assert (NT : all2 Z.eqb ts (original_types d) = false).
      { destruct (all2 Z.eqb ts (original_types d)) eqn:Z; [|reflexivity]. apply all2_Z in Z. subst. congruence. }
      assert (X : forall r, (do same <- r; (if negb same then Err ValueError else if negb (all2 Z.eqb ts (original_types d)) then Err ValueError else Ok tt))
         = match r with Ok _ => Err ValueError | Err e => Err e end).
      { intros [[|]|e]; cbn; rewrite ?NT; reflexivity. }
      destruct ps as [|p [|p' ps]], (original_positions d) as [|q [|q' qs]]; rewrite X; reflexivity. }
  destruct K as [(Y & O)|(N & O)]; split; intros H; try contradiction.
  - split; [exact O|]. intros l' E. apply obtained_same; auto.
  - apply obtained_fail; exact O.
Qed.
Print Assumptions C59_checked.
(* Anything that is not such a data object is a TypeError. *)
Theorem C59_not_data : forall spglib cell atoms, valid_atoms atoms ["positions"] -> all_fail spglib cell atoms OtherObject TypeError.
Proof.
  intros l cell atoms V. apply obtained_fail. unfold obtain_data. rewrite (proj2 (C29_accepts_exactly_valid atoms ["positions"] true) V). reflexivity.
Qed.
Print Assumptions C59_not_data.

(* A crystal with a boolean coordinate and a type given as True, and a library that answers. *)
Definition some_lib (cell : mat) : spglib_module :=
  {| get_symmetry_dataset := fun _ _ _ _ _ => Some (Dataset 16 cell mid [vzero] [1%Z]);
     find_primitive := fun _ _ _ _ _ => Some (cell, [vzero], [1%Z]);
     niggli_reduce := fun m _ => Ok m |}.
Definition odd_atom : atoms_dict :=
  [("positions", PList [PList [PInt 0; PBool true; PFloat (1 / 2)]]); ("spglib_types", PList [PBool true])].
Example C59_case : forall cell, exists d,
  get_spglib_data (Some (some_lib cell)) cell odd_atom default_symprec default_spglib_angle = Ok d /\
  has_positions odd_atom [V3 0 1 (1 / 2)] /\ has_types odd_atom [1%Z] /\ valid_atoms odd_atom ["positions"] /\
  of_crystal d cell [V3 0 1 (1 / 2)] [1%Z] /\ ~ of_crystal d cell [V3 0 1 (1 / 2)] [2%Z].
Proof.
  intros cell. eexists. split; [reflexivity|].
  split.
  { eexists. split; [reflexivity|]. constructor; [|constructor]. exists (PInt 0), (PBool true), (PFloat (1 / 2)). split; [reflexivity|].
    cbn [vx vy vz]. split; [apply (number_int 0)|]. split; constructor. }
  split; [eexists; split; [reflexivity|]; repeat constructor|].
  split; [apply (C29_accepts_exactly_valid odd_atom ["positions"] true); reflexivity|].
  assert (RF : forall v, near v v) by (intros v; apply near_spec, allclose_refl).
  split; [split; [|split; [|split; [|split]]]; try apply RF; [|reflexivity]|].
  - cbn. constructor; [apply RF|constructor].
  - intros (_ & _ & _ & _ & H). cbn in H. discriminate.
Qed.
