(* P_Variation.v : properties C39 (sc_get_variation) and
   C41 (space-group tables). *)
From Verif Require Import Base M_Strings M_Dict M_Numerical M_Geometry M_Cell M_Niggli M_Atoms T_Tables M_Spglib M_Conventional M_Primitive
  M_Variation F_Geometry F_Niggli F_Voronoi F_Strings F_Atoms S_Crystal F_Conventional F_Primitive P_Conventional P_Monoclinic P_Primitive.
Open Scope string_scope.
Open Scope list_scope.
Open Scope R_scope.

(* ================= C41: space groups ================= *)
(* International Tables for Crystallography A, by space group number *)
Definition in_range (n : Z) (r : Z * Z) : Prop := (fst r <= n <= snd r)%Z.
Definition in_ranges (n : Z) (l : list (Z * Z)) : Prop := Exists (in_range n) l.
Definition family_of (n : Z) (f : string) : Prop :=
  In (f) families /\
  (f = "a" <-> in_range n (1, 2)%Z) /\ (f = "m" <-> in_range n (3, 15)%Z) /\ (f = "o" <-> in_range n (16, 74)%Z) /\
  (f = "t" <-> in_range n (75, 142)%Z) /\ (f = "h" <-> in_range n (143, 194)%Z) /\ (f = "c" <-> in_range n (195, 230)%Z).
Definition F_groups : list (Z * Z) := [(22,22);(42,43);(69,70);(196,196);(202,203);(209,210);(216,216);(219,219);(225,228)]%Z.
Definition I_groups : list (Z * Z) := [(23,24);(44,46);(71,74);(79,80);(82,82);(87,88);(97,98);(107,110);(119,122);(139,142);
  (197,197);(199,199);(204,204);(206,206);(211,211);(214,214);(217,217);(220,220);(229,230)]%Z.
Definition A_groups : list (Z * Z) := [(38,41)]%Z.
Definition C_groups : list (Z * Z) := [(5,5);(8,9);(12,12);(15,15);(20,21);(35,37);(63,68)]%Z.
Definition R_groups : list (Z * Z) := [(146,146);(148,148);(155,155);(160,161);(166,167)]%Z.
Definition centrosymmetric : list (Z * Z) := [(2,2);(10,15);(47,74);(83,88);(123,142);(147,148);(162,167);(175,176);(191,194);(200,206);(221,230)]%Z.
Definition centring_of (n : Z) (c : string) : Prop :=
  In c centrings /\ (c = "F" <-> in_ranges n F_groups) /\ (c = "I" <-> in_ranges n I_groups) /\ (c = "A" <-> in_ranges n A_groups) /\
  (c = "C" <-> in_ranges n C_groups) /\ (c = "R" <-> in_ranges n R_groups).

(* deciding the specifications, to check them number by number *)
Definition in_range_b (n : Z) (r : Z * Z) : bool := (Z.leb (fst r) n && Z.leb n (snd r))%bool.
Lemma in_range_iff n r : in_range_b n r = true <-> in_range n r.
Proof. unfold in_range_b, in_range. rewrite andb_true_iff, !Z.leb_le. tauto. Qed.
Lemma in_ranges_iff n l : existsb (in_range_b n) l = true <-> in_ranges n l.
Proof.
  unfold in_ranges. rewrite existsb_exists, Exists_exists. split; intros (x & A & B); exists x; split; auto; apply in_range_iff; auto.
Qed.
Definition iff_b (a b : bool) : bool := Bool.eqb a b.
Lemma iff_b_iff (a b : bool) (P Q : Prop) : (a = true <-> P) -> (b = true <-> Q) -> iff_b a b = true -> (P <-> Q).
Proof. intros A B E. apply Bool.eqb_prop in E. subst. tauto. Qed.
Definition group_ok (n : Z) : bool :=
  match zlookup n CRYSTAL_FAMILY, zlookup n CENTRING_TYPE, zlookup n INVERSION_SYMMETRY with
  | Some f, Some c, Some b =>
      let k := String.append f c in
      mem f families && mem c centrings && mem k BRAVAIS_LATTICES &&
      mem k (keys SC_BRAVAIS_LATTICE_SHORT_NAMES) && mem k (keys SC_CONVENTIONAL_TO_PRIMITIVE) && mem k (keys HPKOT_CONVENTIONAL_TO_PRIMITIVE) &&
      iff_b (String.eqb f "a") (in_range_b n (1, 2)%Z) && iff_b (String.eqb f "m") (in_range_b n (3, 15)%Z) &&
      iff_b (String.eqb f "o") (in_range_b n (16, 74)%Z) && iff_b (String.eqb f "t") (in_range_b n (75, 142)%Z) &&
      iff_b (String.eqb f "h") (in_range_b n (143, 194)%Z) && iff_b (String.eqb f "c") (in_range_b n (195, 230)%Z) &&
      iff_b (String.eqb c "F") (existsb (in_range_b n) F_groups) && iff_b (String.eqb c "I") (existsb (in_range_b n) I_groups) &&
      iff_b (String.eqb c "A") (existsb (in_range_b n) A_groups) && iff_b (String.eqb c "C") (existsb (in_range_b n) C_groups) &&
      iff_b (String.eqb c "R") (existsb (in_range_b n) R_groups) && iff_b b (existsb (in_range_b n) centrosymmetric)
  | _, _, _ => false
  end.
Definition groups : list Z := map Z.of_nat (seq 1 230).
Lemma groups_in n : (1 <= n <= 230)%Z -> In n groups.
Proof. intros H. unfold groups. apply in_map_iff. exists (Z.to_nat n). split; [lia|]. apply in_seq. lia. Qed.
Lemma groups_ok : forallb group_ok groups = true.
Proof. vm_compute. reflexivity. Qed.
Lemma lookup_keys {A} k (d : dict A) : In k (keys d) -> exists v, lookup k d = Some v.
Proof.
  induction d as [|[k' v] d IH]; cbn; [tauto|]. intros [<-|H].
  - rewrite String.eqb_refl. eauto.
  - destruct (String.eqb k k'); eauto.
Qed.
Theorem C41_tables : forall n, (1 <= n <= 230)%Z ->
  exists f c b, zlookup n CRYSTAL_FAMILY = Some f /\ zlookup n CENTRING_TYPE = Some c /\ zlookup n INVERSION_SYMMETRY = Some b /\
    family_of n f /\ centring_of n c /\ (b = true <-> in_ranges n centrosymmetric) /\
    In (String.append f c) BRAVAIS_LATTICES /\
    (exists name, lookup (String.append f c) SC_BRAVAIS_LATTICE_SHORT_NAMES = Some name) /\
    (exists m, lookup (String.append f c) SC_CONVENTIONAL_TO_PRIMITIVE = Some m) /\
    (exists m, lookup (String.append f c) HPKOT_CONVENTIONAL_TO_PRIMITIVE = Some m).
Proof.
  intros n H. pose proof groups_ok as G. rewrite forallb_forall in G. specialize (G n (groups_in n H)). unfold group_ok in G.
  destruct (zlookup n CRYSTAL_FAMILY) as [f|]; [|discriminate].
  destruct (zlookup n CENTRING_TYPE) as [c|]; [|discriminate].
  destruct (zlookup n INVERSION_SYMMETRY) as [b|]; [|discriminate]. cbv zeta in G.
  repeat (apply andb_true_iff in G; let X := fresh "K" in destruct G as (G & X)).
  exists f, c, b. do 3 (split; [reflexivity|]).
  apply mem_true in G.
  repeat match goal with K : mem _ _ = true |- _ => apply mem_true in K end.
  unfold family_of, centring_of.
  repeat match goal with K : iff_b (String.eqb ?x ?y) (in_range_b ?n ?r) = true |- _ =>
    apply (iff_b_iff _ _ (x = y) (in_range n r) (String.eqb_eq x y) (in_range_iff n r)) in K end.
  repeat match goal with K : iff_b (String.eqb ?x ?y) (existsb (in_range_b ?n) ?r) = true |- _ =>
    apply (iff_b_iff _ _ (x = y) (in_ranges n r) (String.eqb_eq x y) (in_ranges_iff n r)) in K end.
  repeat match goal with K : iff_b ?b (existsb (in_range_b ?n) ?r) = true |- _ =>
    apply (iff_b_iff _ _ (b = true) (in_ranges n r) (conj (fun x => x) (fun x => x)) (in_ranges_iff n r)) in K end.
  split; [tauto|]. split; [tauto|]. split; [tauto|]. split; [auto|].
  split; [apply lookup_keys; auto|]. split; apply lookup_keys; auto.
Qed.
Print Assumptions C41_tables.
Lemma zlookup_keys {A} n (d : list (Z * A)) v : zlookup n d = Some v -> In n (map fst d).
Proof.
  induction d as [|[k w] d IH]; cbn; [discriminate|]. destruct (Z.eqb_spec n k) as [->|]; auto.
Qed.
Definition in_range_b' (a b n : Z) : bool := in_range_b n (a, b).
Theorem C41_no_other_groups : forall n, ~ (1 <= n <= 230)%Z ->
  zlookup n CRYSTAL_FAMILY = None /\ zlookup n CENTRING_TYPE = None /\ zlookup n INVERSION_SYMMETRY = None.
Proof.
  intros n H.
  assert (G : forall l, forallb (in_range_b' 1 230) l = true -> In n l -> False).
  { intros l F I. rewrite forallb_forall in F. apply F in I. apply in_range_iff in I. unfold in_range in I. cbn [fst snd] in I. lia. }
  repeat split; match goal with |- zlookup n ?d = None => destruct (zlookup n d) eqn:E; [|reflexivity] end;
  exfalso; apply zlookup_keys in E; revert E; apply G; vm_compute; reflexivity.
Qed.
Print Assumptions C41_no_other_groups.

(* the data read from spglib is consistent with the tables *)
Definition consistent (d : spglib_data) : Prop :=
  zlookup (space_group_number d) CRYSTAL_FAMILY = Some (crystal_family d) /\
  zlookup (space_group_number d) CENTRING_TYPE = Some (centring_type d).
Theorem C41_data_consistent : forall spglib cell atoms sp an d,
  get_spglib_data spglib cell atoms sp an = Ok d ->
  consistent d /\ (1 <= space_group_number d <= 230)%Z /\
  In (crystal_family d) families /\ In (centring_type d) centrings /\ In (lattice_type d) BRAVAIS_LATTICES.
Proof.
  intros spglib cell atoms sp an d H. unfold get_spglib_data in H. destruct spglib as [lib|]; [|discriminate].
  unbind H. unbind H. unbind H. unbind H. cbv zeta in H.
  destruct (get_symmetry_dataset _ _ _ _ _ _) as [ds|]; [|discriminate].
  apply bind_ok in H. destruct H as (f & F & H). apply bind_ok in H. destruct H as (c & C & H).
  destruct (find_primitive _ _ _ _ _ _) as [[[? ?] ?]|]; [|discriminate]. injection H as <-.
  unfold zgetitem in F, C.
  destruct (zlookup (ds_number ds) CRYSTAL_FAMILY) as [f0|] eqn:EF; [|discriminate]. injection F as ->.
  destruct (zlookup (ds_number ds) CENTRING_TYPE) as [c0|] eqn:EC; [|discriminate]. injection C as ->.
  split; [split; cbn [space_group_number crystal_family centring_type]; auto|]. cbn [space_group_number crystal_family centring_type].
  assert (R : (1 <= ds_number ds <= 230)%Z).
  { assert (Q : (1 <= ds_number ds <= 230)%Z \/ ~ (1 <= ds_number ds <= 230)%Z) by lia. destruct Q as [Q|Q]; auto.
    apply C41_no_other_groups in Q. destruct Q as (Q & _). congruence. }
  split; auto. destruct (C41_tables _ R) as (f' & c' & b & F' & C' & _ & (FF & _) & (CC & _) & _ & B & _).
  assert (f' = f) by congruence. assert (c' = c) by congruence. subst. auto.
Qed.
Print Assumptions C41_data_consistent.

(* ================= C39: SC variations ================= *)
Lemma obtain_again spglib cell atoms arg d : obtain_data spglib cell atoms arg = Ok d -> obtain_data spglib cell atoms (Data d) = Ok d.
Proof.
  intros H. destruct arg as [| |d0].
  - apply obtain_nodata in H. destruct H as (H & _). apply (C32_data_reused _ _ _ "SC" _ _ _ H).
  - unfold obtain_data in H. unbind H. discriminate.
  - assert (E : d0 = d) by (unfold obtain_data in H; unbind H; unbind H; congruence). subst. exact H.
Qed.
(* what sc_get_variation computes from, for the five lattices with several variations *)
Definition sc_params (spglib : option spglib_module) (cell : mat) (atoms : atoms_dict) (d : spglib_data) (c : mat) (p : params) : Prop :=
  (exists conv_atoms, get_conventional spglib cell atoms "SC" (Data d) = Ok (c, conv_atoms)) /\ get_params c = Ok p.
Section Variation.
  Context (spglib : option spglib_module) (cell : mat) (atoms : atoms_dict) (arg : data_arg) (d : spglib_data).
  Hypothesis D : obtain_data spglib cell atoms arg = Ok d.
  Lemma variation_lt lt c p : crystal_family d = fst lt -> centring_type d = snd lt -> sc_params spglib cell atoms d c p ->
    sc_get_variation spglib cell atoms arg =
    (let l := String.append (fst lt) (snd lt) in
     let eps := spglib_angle_or_default d in
     if mem l ["tI"; "oF"; "hR"; "mC"; "aP"] then
        if String.eqb l "tI" then BCT_variation (pa p) (pc p)
        else if String.eqb l "oF" then ORCF_variation (pa p) (pb p) (pc p) (symprec d)
        else if String.eqb l "hR" then RHL_variation (palpha p) eps
        else if String.eqb l "mC" then
          do (prim_cell, _) <- get_primitive spglib cell atoms "SC" (Data d);
          do r <- get_reciprocal prim_cell;
          do q <- get_params r;
          MCLC_variation (pa p) (pb p) (pc p) (palpha p) (pgamma q) (symprec d) eps
        else if String.eqb l "aP" then
          do r <- get_reciprocal c;
          do q <- get_params r;
          TRI_variation (palpha q) (pbeta q) (pgamma q) eps
        else do v <- getitem l SC_BRAVAIS_LATTICE_SHORT_NAMES; Ok (Some v)
     else do v <- getitem l SC_BRAVAIS_LATTICE_SHORT_NAMES; Ok (Some v)).
  Proof.
    intros F C ((ca & G) & P). unfold sc_get_variation. rewrite D. cbn [bind]. cbv zeta. unfold lattice_type. rewrite F, C, G. cbn [bind].
    rewrite P. reflexivity.
  Qed.
End Variation.

Theorem C39_tetragonal : forall spglib cell atoms arg d c p,
  obtain_data spglib cell atoms arg = Ok d -> crystal_family d = "t" -> centring_type d = "I" ->
  sc_params spglib cell atoms d c p ->
  (sc_get_variation spglib cell atoms arg = Ok (Some "BCT1") <-> pc p < pa p) /\
  (sc_get_variation spglib cell atoms arg = Ok (Some "BCT2") <-> pa p < pc p) /\
  (sc_get_variation spglib cell atoms arg = Err ValueError <-> pa p = pc p).
Proof.
  intros spglib cell atoms arg d c p D F C P. rewrite (variation_lt _ _ _ _ _ D ("t", "I") c p F C P).
  cbv beta zeta iota. match goal with |- context [if mem ?a ?b then _ else _] => change (mem a b) with true end. cbv beta zeta iota.
  change (String.eqb (String.append (fst ("t", "I")) (snd ("t", "I"))) "tI") with true. cbv iota. unfold BCT_variation.
  destruct (Rltb_spec (pc p) (pa p)), (Rltb_spec (pa p) (pc p)); repeat split; intros; try discriminate; try reflexivity; try lra.
Qed.
Print Assumptions C39_tetragonal.

Definition inverse_square (x : R) := / (x * x).
Lemma inv_sqr_pos x : 0 < x -> inv_sqr x = Ok (inverse_square x).
Proof.
  intros H. unfold inv_sqr, inverse_square. assert (x * x <> 0) by nra. destruct (Reqb_spec (x * x) 0); [contradiction|]. f_equal. field. lra.
Qed.
Lemma params_pos c p : get_params c = Ok p -> 0 < pa p /\ 0 < pb p /\ 0 < pc p.
Proof.
  intros H. apply get_params_inv in H. destruct H as (B & ->). unfold params_val. cbn [pa pb pc]. apply big_pos; auto.
Qed.
Theorem C39_orthorhombic : forall spglib cell atoms arg d c p,
  obtain_data spglib cell atoms arg = Ok d -> crystal_family d = "o" -> centring_type d = "F" ->
  sc_params spglib cell atoms d c p -> 0 <= symprec d ->
  let e := symprec d in
  let x := inverse_square (pa p) - inverse_square (pb p) - inverse_square (pc p) in
  let separated := pa p + e < pb p /\ pb p + e < pc p in
  (sc_get_variation spglib cell atoms arg = Ok (Some "ORCF1") <-> separated /\ e < x) /\
  (sc_get_variation spglib cell atoms arg = Ok (Some "ORCF2") <-> separated /\ x < - e) /\
  (sc_get_variation spglib cell atoms arg = Ok (Some "ORCF3") <-> separated /\ Rabs x <= e) /\
  (sc_get_variation spglib cell atoms arg = Err ValueError <-> ~ separated) /\
  pa p < pb p < pc p.
Proof.
  intros spglib cell atoms arg d c p D F C P He e x separated.
  assert (O : pa p < pb p < pc p).
  { destruct P as ((ca & G) & P). pose proof (C33_ordered _ _ _ "SC" _ _ _ _ (obtain_again _ _ _ _ _ D) F eq_refl G) as (Q & _).
    apply get_params_inv in P. destruct P as (_ & ->). unfold params_val. cbn [pa pb pc]. apply Q. rewrite C. cbn. auto. }
  assert (PP := params_pos _ _ (proj2 P)).
  rewrite (variation_lt _ _ _ _ _ D ("o", "F") c p F C P).
  cbv beta zeta iota. match goal with |- context [if mem ?a ?b then _ else _] => change (mem a b) with true end. cbv beta zeta iota.
  change (String.eqb (String.append (fst ("o", "F")) (snd ("o", "F"))) "tI") with false.
  change (String.eqb (String.append (fst ("o", "F")) (snd ("o", "F"))) "oF") with true. cbv iota. unfold ORCF_variation.
  fold e. rewrite !inv_sqr_pos by lra. cbn [bind]. fold x. fold e in He.
  assert (ABS : Rabs x <= e <-> - e <= x <= e) by (unfold Rabs; destruct (Rcase_abs x); split; lra). rewrite ABS. clearbody x. unfold separated in *.
  destruct (cwt (pa p) CGe (pb p) e) eqn:C1.
  { cbn [orb]. apply cwt_ge in C1. unfold separated. repeat split; intros; try discriminate; try reflexivity; try lra; try tauto. }
  destruct (cwt (pb p) CGe (pc p) e) eqn:C2.
  { cbn [orb]. apply cwt_ge in C2. unfold separated. repeat split; intros; try discriminate; try reflexivity; try lra; try tauto. }
  cbn [orb]. apply cwt_ge_false in C1, C2. assert (S : separated) by (unfold separated; lra).
  destruct (cwt x CEq 0 e) eqn:E1.
  { apply cwt_eq in E1. 
    repeat split; intros; try discriminate; try reflexivity; try lra; try tauto. }
  apply cwt_eq_false in E1.
  assert (CGT : forall y z t, cwt y CGt z t = true <-> z < y - t) by (intros; unfold cwt; apply Rltb_true).
  assert (CLT : forall y z t, cwt y CLt z t = true <-> y < z - t) by (intros; unfold cwt; apply Rltb_true).
  destruct (cwt x CGt 0 e) eqn:E2.
  { apply CGT in E2. repeat split; intros; try discriminate; try reflexivity; try lra; try tauto. }
  destruct (cwt x CLt 0 e) eqn:E3.
  { apply CLT in E3. repeat split; intros; try discriminate; try reflexivity; try lra; try tauto. }
  exfalso. destruct E1 as [E1|E1]; [assert (cwt x CLt 0 e = true) by (apply CLT; lra)|assert (cwt x CGt 0 e = true) by (apply CGT; lra)]; congruence.
Qed.
Print Assumptions C39_orthorhombic.

Theorem C39_rhombohedral : forall spglib cell atoms arg d c p,
  obtain_data spglib cell atoms arg = Ok d -> crystal_family d = "h" -> centring_type d = "R" ->
  sc_params spglib cell atoms d c p -> 0 <= spglib_angle_or_default d ->
  let e := spglib_angle_or_default d in
  (sc_get_variation spglib cell atoms arg = Ok (Some "RHL1") <-> palpha p < 90 - e) /\
  (sc_get_variation spglib cell atoms arg = Ok (Some "RHL2") <-> 90 + e < palpha p) /\
  (sc_get_variation spglib cell atoms arg = Err ValueError <-> Rabs (palpha p - 90) <= e).
Proof.
  intros spglib cell atoms arg d c p D F C P He e.
  rewrite (variation_lt _ _ _ _ _ D ("h", "R") c p F C P).
  cbv beta zeta iota. match goal with |- context [if mem ?a ?b then _ else _] => change (mem a b) with true end. cbv beta zeta iota.
  change (String.eqb (String.append (fst ("h", "R")) (snd ("h", "R"))) "tI") with false.
  change (String.eqb (String.append (fst ("h", "R")) (snd ("h", "R"))) "oF") with false.
  change (String.eqb (String.append (fst ("h", "R")) (snd ("h", "R"))) "hR") with true. cbv iota. unfold RHL_variation, cwt. fold e in He |- *.
  unfold Rabs. destruct (Rcase_abs (palpha p - 90));
  destruct (Rltb_spec (palpha p) (90 - e)), (Rltb_spec 90 (palpha p - e)); repeat split; intros; try discriminate; try reflexivity; try lra.
Qed.
Print Assumptions C39_rhombohedral.

Theorem C39_monoclinic : forall spglib cell atoms arg d c p prim patoms r q,
  obtain_data spglib cell atoms arg = Ok d -> crystal_family d = "m" -> centring_type d = "C" ->
  sc_params spglib cell atoms d c p ->
  get_primitive spglib cell atoms "SC" (Data d) = Ok (prim, patoms) -> get_reciprocal prim = Ok r -> get_params r = Ok q ->
  0 <= spglib_angle_or_default d -> 0 <= symprec d ->
  let e := spglib_angle_or_default d in
  let s := symprec d in
  let k := pgamma q in
  let al := palpha p * TORADIANS in
  let x := pb p / pc p * cos al + pb p * pb p / (pa p * pa p) * (sin al * sin al) in
  (sc_get_variation spglib cell atoms arg = Ok (Some "MCLC1") <-> 90 + e < k) /\
  (sc_get_variation spglib cell atoms arg = Ok (Some "MCLC2") <-> Rabs (k - 90) <= e) /\
  (sc_get_variation spglib cell atoms arg = Ok (Some "MCLC3") <-> k < 90 - e /\ x < 1 - s) /\
  (sc_get_variation spglib cell atoms arg = Ok (Some "MCLC4") <-> k < 90 - e /\ Rabs (x - 1) <= s) /\
  (sc_get_variation spglib cell atoms arg = Ok (Some "MCLC5") <-> k < 90 - e /\ 1 + s < x).
Proof.
  intros spglib cell atoms arg d c p prim patoms r q D F C P GP R Q He Hs e s k al x.
  assert (A : palpha p <= 90 + e).
  { destruct P as ((ca & G) & P). 
    destruct (C34_standard_setting _ _ _ "SC" _ _ _ _ (obtain_again _ _ _ _ _ D) F eq_refl He G) as (p' & P' & (_ & _ & B & _)).
    assert (p' = p) by congruence. subst. exact B. }
  assert (PP := params_pos _ _ (proj2 P)).
  rewrite (variation_lt _ _ _ _ _ D ("m", "C") c p F C P).
  cbv beta zeta iota. match goal with |- context [if mem ?a ?b then _ else _] => change (mem a b) with true end. cbv beta zeta iota.
  change (String.eqb (String.append (fst ("m", "C")) (snd ("m", "C"))) "tI") with false.
  change (String.eqb (String.append (fst ("m", "C")) (snd ("m", "C"))) "oF") with false.
  change (String.eqb (String.append (fst ("m", "C")) (snd ("m", "C"))) "hR") with false.
  change (String.eqb (String.append (fst ("m", "C")) (snd ("m", "C"))) "mC") with true. cbv iota.
  rewrite GP. cbn [bind]. rewrite R. cbn [bind]. rewrite Q. cbn [bind]. unfold MCLC_variation. fold e s k al.
  assert (CGT : forall y z t, cwt y CGt z t = true <-> z < y - t) by (intros; unfold cwt; apply Rltb_true).
  assert (CLT : forall y z t, cwt y CLt z t = true <-> y < z - t) by (intros; unfold cwt; apply Rltb_true).
  assert (ABS : forall y z t, Rabs (y - z) <= t <-> z - t <= y <= z + t).
  { intros y z t. unfold Rabs. destruct (Rcase_abs (y - z)); split; lra. }
  rewrite !ABS. fold e in He. fold s in Hs.
  destruct (cwt (palpha p) CGt 90 e) eqn:CA; [apply CGT in CA; lra|].
  destruct (cwt k CEq 90 e) eqn:K1; [apply cwt_eq in K1; repeat split; intros; try discriminate; try reflexivity; try lra|].
  apply cwt_eq_false in K1.
  destruct (cwt k CGt 90 e) eqn:K2; [apply CGT in K2; repeat split; intros; try discriminate; try reflexivity; try lra|].
  assert (K3 : k < 90 - e).
  { destruct K1; auto. assert (cwt k CGt 90 e = true) by (apply CGT; lra). congruence. }
  rewrite (proj2 (CLT _ _ _)) by auto.
  destruct (Reqb_spec (pc p) 0); [lra|]. destruct (Reqb_spec (pa p * pa p) 0); [nra|]. cbn [orb].
  replace (pb p * cos al / pc p + pb p * pb p * (sin al * sin al) / (pa p * pa p)) with x by (unfold x; field; lra).
  destruct (cwt x CEq 1 s) eqn:X1; [apply cwt_eq in X1; repeat split; intros; try discriminate; try reflexivity; try lra|].
  apply cwt_eq_false in X1.
  destruct (cwt x CLt 1 s) eqn:X2; [apply CLT in X2; repeat split; intros; try discriminate; try reflexivity; try lra|].
  assert (X3 : 1 + s < x).
  { destruct X1; auto. assert (cwt x CLt 1 s = true) by (apply CLT; lra). congruence. }
  rewrite (proj2 (CGT _ _ _)) by lra. repeat split; intros; try discriminate; try reflexivity; try lra.
Qed.
Print Assumptions C39_monoclinic.

Theorem C39_triclinic : forall spglib cell atoms arg d c p r q,
  obtain_data spglib cell atoms arg = Ok d -> crystal_family d = "a" -> centring_type d = "P" ->
  sc_params spglib cell atoms d c p -> get_reciprocal c = Ok r -> get_params r = Ok q ->
  0 <= spglib_angle_or_default d ->
  let e := spglib_angle_or_default d in
  let straight := fun x => Rabs (x - 90) <= e in
  (sc_get_variation spglib cell atoms arg = Ok (Some "TRI1a") <-> 90 + e < palpha q /\ 90 + e < pbeta q /\ 90 + e < pgamma q) /\
  (sc_get_variation spglib cell atoms arg = Ok (Some "TRI1b") <-> palpha q < 90 - e /\ pbeta q < 90 - e /\ pgamma q < 90 - e) /\
  (sc_get_variation spglib cell atoms arg = Ok (Some "TRI2a") <-> 90 + e < palpha q /\ 90 + e < pbeta q /\ straight (pgamma q)) /\
  (sc_get_variation spglib cell atoms arg = Ok (Some "TRI2b") <-> palpha q < 90 - e /\ pbeta q < 90 - e /\ straight (pgamma q)) /\
  (sc_get_variation spglib cell atoms arg = Err ValueError <-> straight (palpha q) \/ straight (pbeta q)) /\
  (* one of the five: neither "TRI" nor None is ever returned *)
  (sc_get_variation spglib cell atoms arg = Err ValueError \/
   exists v, In v ["TRI1a"; "TRI1b"; "TRI2a"; "TRI2b"] /\ sc_get_variation spglib cell atoms arg = Ok (Some v)).
Proof.
  intros spglib cell atoms arg d c p r q D F C P R Q He e straight.
  assert (U : all_acute_or_none q).
  { destruct P as ((ca & G) & P).
    destruct (C35_sc_setting _ _ _ "SC" _ _ _ _ (obtain_again _ _ _ _ _ D) F eq_refl He G) as (r' & q' & R' & Q' & U & _).
    assert (r' = r) by congruence. subst. assert (q' = q) by congruence. subst. exact U. }
  rewrite (variation_lt _ _ _ _ _ D ("a", "P") c p F C P).
  cbv beta zeta iota. match goal with |- context [if mem ?a ?b then _ else _] => change (mem a b) with true end. cbv beta zeta iota.
  change (String.eqb (String.append (fst ("a", "P")) (snd ("a", "P"))) "tI") with false.
  change (String.eqb (String.append (fst ("a", "P")) (snd ("a", "P"))) "oF") with false.
  change (String.eqb (String.append (fst ("a", "P")) (snd ("a", "P"))) "hR") with false.
  change (String.eqb (String.append (fst ("a", "P")) (snd ("a", "P"))) "mC") with false.
  change (String.eqb (String.append (fst ("a", "P")) (snd ("a", "P"))) "aP") with true. cbv iota.
  rewrite R. cbn [bind]. rewrite Q. cbn [bind]. unfold TRI_variation. fold e.
  assert (CGT : forall y z t, cwt y CGt z t = true <-> z < y - t) by (intros; unfold cwt; apply Rltb_true).
  assert (CLT : forall y z t, cwt y CLt z t = true <-> y < z - t) by (intros; unfold cwt; apply Rltb_true).
  assert (ST : forall y, straight y <-> 90 - e <= y <= 90 + e).
  { intros y. unfold straight, Rabs. destruct (Rcase_abs (y - 90)); split; lra. }
  rewrite !ST. fold e in He. unfold all_acute_or_none, uniform in U. clear straight ST.
  set (a := palpha q) in *. set (b := pbeta q) in *. set (g := pgamma q) in *. clearbody a b g. clear D P R Q.
  destruct (cwt a CEq 90 e) eqn:A1.
  { apply cwt_eq in A1. cbn [orb]. repeat split; intros; try discriminate; try reflexivity; try lra; auto. }
  destruct (cwt b CEq 90 e) eqn:B1.
  { apply cwt_eq in B1. cbn [orb]. repeat split; intros; try discriminate; try reflexivity; try lra; auto. }
  apply cwt_eq_false in A1, B1. cbn [orb].
  destruct (cwt g CEq 90 e) eqn:G1.
  - apply cwt_eq in G1. destruct U as [U|U].
    + assert (NA : cwt a CGt 90 e = false) by (destruct (cwt a CGt 90 e) eqn:X; auto; apply CGT in X; lra). rewrite NA. cbn [andb].
      rewrite !(proj2 (CLT _ _ _)) by lra. cbn [andb].
      repeat split; intros; try discriminate; try reflexivity; try lra. right. exists "TRI2b". cbn. tauto.
    + rewrite !(proj2 (CGT _ _ _)) by lra. cbn [andb].
      repeat split; intros; try discriminate; try reflexivity; try lra. right. exists "TRI2a". cbn. tauto.
  - apply cwt_eq_false in G1. unfold min3, max3. destruct U as [U|U].
    + assert (NA : cwt (Rmin (Rmin g b) a) CGt 90 e = false).
      { destruct (cwt (Rmin (Rmin g b) a) CGt 90 e) eqn:X; auto. apply CGT in X. pose proof (Rmin_r (Rmin g b) a). lra. }
      rewrite NA. rewrite (proj2 (CLT _ _ _)).
      * repeat split; intros; try discriminate; try reflexivity; try lra. right. exists "TRI1b". cbn. tauto.
      * unfold Rmax. repeat match goal with |- context [Rle_dec ?x ?y] => destruct (Rle_dec x y) end; lra.
    + rewrite (proj2 (CGT _ _ _)).
      * repeat split; intros; try discriminate; try reflexivity; try lra. right. exists "TRI1a". cbn. tauto.
      * unfold Rmin. repeat match goal with |- context [Rle_dec ?x ?y] => destruct (Rle_dec x y) end; lra.
Qed.
Print Assumptions C39_triclinic.

(* the other ten lattices have one variation, named after the lattice; it needs no conventional cell *)
Definition only_variation : dict string :=
  [("cP", "CUB"); ("cF", "FCC"); ("cI", "BCC"); ("tP", "TET"); ("oP", "ORC"); ("oI", "ORCI"); ("oA", "ORCC"); ("oC", "ORCC"); ("hP", "HEX"); ("mP", "MCL")].
Theorem C39_single_variation : forall spglib cell atoms arg d v,
  obtain_data spglib cell atoms arg = Ok d -> In (String.append (crystal_family d) (centring_type d), v) only_variation ->
  sc_get_variation spglib cell atoms arg = Ok (Some v).
Proof.
  intros spglib cell atoms arg d v D H. unfold sc_get_variation. rewrite D. cbn [bind]. cbv zeta. unfold lattice_type.
  cbn [only_variation In] in H.
  repeat (destruct H as [H|H]; [injection H as E <-; rewrite <- E; reflexivity|]). contradiction.
Qed.
Print Assumptions C39_single_variation.

Lemma cwt_trichotomy x y e : cwt x CEq y e = false -> cwt x CGt y e = false -> cwt x CLt y e = true.
Proof.
  intros A B. apply cwt_eq_false in A. unfold cwt in *. destruct (Rltb_spec y (x - e)); [discriminate|].
  destruct (Rltb_spec x (y - e)); auto. exfalso. lra.
Qed.
Lemma lookup_pair {A} k (d : dict A) v : lookup k d = Some v -> In (k, v) d.
Proof.
  induction d as [|[k' v'] d IH]; cbn; [discriminate|]. destruct (String.eqb_spec k k'); [intros H; injection H as <-; subst; auto|auto].
Qed.
Lemma short_name_documented k v : getitem k SC_BRAVAIS_LATTICE_SHORT_NAMES = Ok v -> mem k ["tI"; "oF"; "hR"; "mC"; "aP"] = false ->
  In v SC_BRAVAIS_LATTICE_VARIATIONS.
Proof.
  intros G M. unfold getitem in G. destruct (lookup k SC_BRAVAIS_LATTICE_SHORT_NAMES) as [w|] eqn:L; [|discriminate]. injection G as ->.
  apply lookup_pair in L. cbn [SC_BRAVAIS_LATTICE_SHORT_NAMES In] in L.
  repeat (destruct L as [L|L]; [injection L as E1 E2; subst; first [cbn; tauto | cbv in M; discriminate]|]). contradiction.
Qed.
(* whatever the crystal, a result is one of the documented names; without one an error is raised *)
Theorem C39_documented : forall spglib cell atoms arg d r,
  obtain_data spglib cell atoms arg = Ok d -> In (crystal_family d) families -> In (centring_type d) centrings ->
  0 <= symprec d -> 0 <= spglib_angle_or_default d ->
  sc_get_variation spglib cell atoms arg = Ok r ->
  exists v, r = Some v /\ In v SC_BRAVAIS_LATTICE_VARIATIONS.
Proof.
  intros spglib cell atoms arg d r D F C Hs He H.
  assert (H' := H). unfold sc_get_variation in H. rewrite D in H. cbn [bind] in H. cbv zeta in H.
  destruct (mem (lattice_type d) ["tI"; "oF"; "hR"; "mC"; "aP"]) eqn:M.
  2: { apply bind_ok in H. destruct H as (v & G & H). injection H as <-. exists v. split; auto. eapply short_name_documented; eauto. }
  assert (M' := M). apply mem_true in M'.
  apply bind_ok in H. destruct H as ([c ca] & G & H). apply bind_ok in H. destruct H as (p & P & H).
  assert (SP : sc_params spglib cell atoms d c p) by (split; eauto).
  destruct (String.eqb (lattice_type d) "tI") eqn:L1.
  { unfold BCT_variation in H. destruct (Rltb _ _); [injection H as <-; eexists; split; [reflexivity|cbn; tauto]|].
    destruct (Rltb _ _); [injection H as <-; eexists; split; [reflexivity|cbn; tauto]|discriminate]. }
  destruct (String.eqb (lattice_type d) "oF") eqn:L2.
  { unfold ORCF_variation in H. destruct (_ || _); [discriminate|]. unbind H. unbind H. unbind H.
    match type of H with context [cwt ?x CEq 0 ?e] => remember x as y eqn:Y; clear Y end.
    destruct (cwt y CEq 0 _) eqn:E1; [injection H as <-; eexists; split; [reflexivity|cbn; tauto]|].
    destruct (cwt y CGt 0 _) eqn:E2; [injection H as <-; eexists; split; [reflexivity|cbn; tauto]|].
    rewrite (cwt_trichotomy _ _ _ E1 E2) in H. injection H as <-; eexists; split; [reflexivity|cbn; tauto]. }
  destruct (String.eqb (lattice_type d) "hR") eqn:L3.
  { unfold RHL_variation in H. destruct (cwt _ _ _ _); [injection H as <-; eexists; split; [reflexivity|cbn; tauto]|].
    destruct (cwt _ _ _ _); [injection H as <-; eexists; split; [reflexivity|cbn; tauto]|discriminate]. }
  destruct (String.eqb (lattice_type d) "mC") eqn:L4.
  { apply bind_ok in H. destruct H as ([pc0 pa0] & _ & H). apply bind_ok in H. destruct H as (rr & _ & H). apply bind_ok in H. destruct H as (q & _ & H).
    unfold MCLC_variation in H. destruct (cwt _ CGt _ _); [discriminate|].
    destruct (cwt (pgamma q) CEq 90 _) eqn:E1; [injection H as <-; eexists; split; [reflexivity|cbn; tauto]|].
    destruct (cwt (pgamma q) CGt 90 _) eqn:E2; [injection H as <-; eexists; split; [reflexivity|cbn; tauto]|].
    rewrite (cwt_trichotomy _ _ _ E1 E2) in H. destruct (_ || _); [discriminate|].
    match type of H with context [cwt ?x CEq 1 ?e] => remember x as y eqn:Y; clear Y end.
    destruct (cwt y CEq 1 _) eqn:E3; [injection H as <-; eexists; split; [reflexivity|cbn; tauto]|].
    destruct (cwt y CLt 1 _) eqn:E4; [injection H as <-; eexists; split; [reflexivity|cbn; tauto]|].
    destruct (cwt y CGt 1 _) eqn:E5; [injection H as <-; eexists; split; [reflexivity|cbn; tauto]|].
    rewrite (cwt_trichotomy _ _ _ E3 E5) in E4. discriminate. }
  destruct (String.eqb (lattice_type d) "aP") eqn:L5.
  { apply bind_ok in H. destruct H as (rr & R & H). apply bind_ok in H. destruct H as (q & Q & H).
    apply String.eqb_eq in L5.
    assert (FA : crystal_family d = "a" /\ centring_type d = "P").
    { unfold lattice_type in L5. cbn [families centrings In] in F, C.
      repeat (destruct F as [F|F]; [rewrite <- F in *; repeat (destruct C as [C|C]; [rewrite <- C in *; first [discriminate|auto]|]); contradiction|]). contradiction. }
    destruct FA as (FA & CA).
    destruct (C39_triclinic _ _ _ _ _ _ _ _ _ D FA CA SP R Q He) as (_ & _ & _ & _ & _ & [X|(v & V & X)]); rewrite X in H'; [discriminate|].
    injection H' as <-. exists v. split; auto. cbn in V |- *. tauto. }
  exfalso. cbn in M'. apply String.eqb_neq in L1, L2, L3, L4, L5. intuition congruence.
Qed.
Print Assumptions C39_documented.

(* not every body-centred tetragonal crystal has a variation: when c happens to equal a there is none *)
Lemma tI_cell c : 0 < c -> c >= 1 -> sc_params None (mk 1 0 0 0 1 0 0 0 c) one_atom (data_for (mk 1 0 0 0 1 0 0 0 c) "t" "I")
  (mk 1 0 0 0 1 0 0 0 c) (params_val (mk 1 0 0 0 1 0 0 0 c)) /\
  pa (params_val (mk 1 0 0 0 1 0 0 0 c)) = 1 /\ pc (params_val (mk 1 0 0 0 1 0 0 0 c)) = c.
Proof.
  intros C C1. split.
  - split.
    + apply one_atom_success; [reflexivity|reflexivity|vunfold; lra].
    + apply get_params_val. unfold mk. apply big_M3. repeat split; apply norm_big; unfold dot; cbn [vx vy vz]; nra.
  - unfold params_val, mk, norm, dot. cbn [pa pc row1 row3 vx vy vz]. split.
    + replace (1 * 1 + 0 * 0 + 0 * 0) with 1 by ring. apply sqrt_1.
    + replace (0 * 0 + 0 * 0 + c * c) with (c * c) by ring. apply sqrt_square. lra.
Qed.
Theorem C39_every_tetragonal_refuted : exists cell d,
  obtain_data None cell one_atom (Data d) = Ok d /\ crystal_family d = "t" /\ centring_type d = "I" /\
  sc_get_variation None cell one_atom (Data d) = Err ValueError.
Proof.
  exists (mk 1 0 0 0 1 0 0 0 1), (data_for (mk 1 0 0 0 1 0 0 0 1) "t" "I").
  split; [apply one_atom_obtain|]. split; [reflexivity|]. split; [reflexivity|].
  destruct (tI_cell 1) as (S & A & C); try lra.
  apply (C39_tetragonal None (mk 1 0 0 0 1 0 0 0 1) one_atom _ _ _ _ (one_atom_obtain _ _ _ _) eq_refl eq_refl S). lra.
Qed.
Print Assumptions C39_every_tetragonal_refuted.
Example C39_case :
  sc_get_variation None (mk 1 0 0 0 1 0 0 0 2) one_atom (Data (data_for (mk 1 0 0 0 1 0 0 0 2) "t" "I")) = Ok (Some "BCT2").
Proof.
  destruct (tI_cell 2) as (S & A & C); try lra.
  apply (C39_tetragonal None (mk 1 0 0 0 1 0 0 0 2) one_atom _ _ _ _ (one_atom_obtain _ _ _ _) eq_refl eq_refl S). lra.
Qed.

