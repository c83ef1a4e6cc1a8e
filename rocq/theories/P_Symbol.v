(* P_Symbol.v : property C40 (hpkot_get_extended_bl_symbol). *)
From Verif Require Import Base M_Strings M_Dict M_Numerical M_Geometry M_Cell M_Niggli M_Atoms T_Tables M_Spglib M_Conventional M_Primitive
  M_Variation F_Geometry F_Niggli F_Voronoi F_Strings F_Atoms S_Crystal F_Conventional F_Primitive P_Conventional P_Monoclinic P_Primitive P_Variation.
Open Scope string_scope.
Open Scope list_scope.
Open Scope R_scope.

(* ================= C40: HPKOT extended Bravais-lattice symbols ================= *)
(* lattices whose symbol is fixed by the lattice type and the space group *)
Theorem C40_by_space_group : forall spglib cell atoms arg d,
  obtain_data spglib cell atoms arg = Ok d ->
  let lt := String.append (crystal_family d) (centring_type d) in
  let n := space_group_number d in
  let symbol := hpkot_get_extended_bl_symbol spglib cell atoms arg in
  (In lt ["cI"; "tP"; "oP"; "mP"] -> symbol = Ok (String.append lt "1")) /\
  (In lt ["cP"; "cF"] -> in_range n (195, 206)%Z -> symbol = Ok (String.append lt "1")) /\
  (In lt ["cP"; "cF"] -> in_range n (207, 230)%Z -> symbol = Ok (String.append lt "2")) /\
  (lt = "hP" -> in_ranges n [(143,149);(151,151);(153,153);(157,157);(159,163)]%Z -> symbol = Ok "hP1") /\
  (lt = "hP" -> ~ in_ranges n [(143,149);(151,151);(153,153);(157,157);(159,163)]%Z -> symbol = Ok "hP2").
Proof.
  intros spglib cell atoms arg d D lt n symbol.
  assert (S : symbol = hpkot_get_extended_bl_symbol spglib cell atoms arg) by reflexivity. clearbody symbol.
  unfold hpkot_get_extended_bl_symbol in S. rewrite D in S. cbn [bind] in S. cbv zeta in S. unfold lattice_type in S. fold lt n in S. clearbody lt n.
  assert (Z1 : forall a b, zbetween a n b = true <-> in_range n (a, b)).
  { intros a b. unfold zbetween, in_range. cbn [fst snd]. rewrite andb_true_iff, !Z.leb_le. tauto. }
  split; [|split; [|split; [|split]]].
  - intros H. rewrite S. rewrite (proj2 (mem_true _ _) H). reflexivity.
  - intros H R. apply Z1 in R. cbn in H. destruct H as [<-|[<-|[]]]; cbn in S; rewrite R in S; exact S.
  - intros H R. assert (N : zbetween 195 n 206 = false) by (unfold zbetween, in_range in *; cbn in *; lia).
    apply Z1 in R. cbn in H. destruct H as [<-|[<-|[]]]; cbn in S; rewrite N, R in S; exact S.
  - intros -> H. cbn in S. rewrite S. rewrite (proj2 (orb_true_iff _ _)); [reflexivity|].
    apply in_ranges_iff in H. unfold zbetween. unfold existsb, in_range_b, fst, snd in H. lia.
  - intros -> H. cbn in S. rewrite S.
    destruct (_ || _) eqn:X; [|reflexivity]. exfalso. apply H. apply in_ranges_iff. unfold zbetween in X. unfold existsb, in_range_b, fst, snd. lia.
Qed.
Print Assumptions C40_by_space_group.

Lemma hpkot_conventional_cell spglib cell atoms arg d : obtain_data spglib cell atoms arg = Ok d -> crystal_family d <> "a" ->
  (forall c new, get_conventional spglib cell atoms "HPKOT" arg = Ok (c, new) -> c = conventional_cell d) /\
  get_conventional spglib cell atoms "HPKOT" arg <> Err PotentialBugError.
Proof.
  intros D F. unfold get_conventional. rewrite D. cbn [bind]. unfold conventional_structure. cbv zeta.
  change (lower "HPKOT") with "hpkot". change (String.eqb "hpkot" "spglib" || String.eqb "hpkot" "hpkot") with true.
  apply String.eqb_neq in F. rewrite F. change (String.eqb "hpkot" "hpkot") with true. cbn [andb bind]. split.
  - intros c new H. unbind H. congruence.
  - intros H. apply bind_err in H. destruct H as [H|(new & P & H)]; [|discriminate]. apply make_atoms_err in H. destruct H; discriminate.
Qed.
(* what the lattices with several symbols are told apart by: the lengths and angles of the conventional cell *)
Definition hpkot_params (spglib : option spglib_module) (cell : mat) (atoms : atoms_dict) (d : spglib_data) (c : mat) (p : params) : Prop :=
  (exists conv_atoms, get_conventional spglib cell atoms "HPKOT" (Data d) = Ok (c, conv_atoms)) /\ get_params c = Ok p.
Ltac symbol_of D F C P :=
  destruct P as ((ca & G) & PP); unfold hpkot_get_extended_bl_symbol; rewrite D; cbn [bind]; cbv zeta; unfold lattice_type; rewrite F, C;
  match goal with |- context [if mem ?a ?b then _ else _] => change (mem a b) with false end; cbv iota;
  cbn [String.append]; cbn [String.eqb Ascii.eqb Bool.eqb]; rewrite G; cbn [bind]; rewrite PP; cbn [bind].
Section Symbol.
  Context (spglib : option spglib_module) (cell : mat) (atoms : atoms_dict) (arg : data_arg) (d : spglib_data) (c : mat) (p : params).
  Let symbol := hpkot_get_extended_bl_symbol spglib cell atoms arg.
  Definition two_symbols (s1 s2 : string) (P : Prop) : Prop := (P -> symbol = Ok s1) /\ (~ P -> symbol = Ok s2).
End Symbol.
Theorem C40_tetragonal : forall spglib cell atoms arg d c p,
  obtain_data spglib cell atoms arg = Ok d -> crystal_family d = "t" -> centring_type d = "I" -> hpkot_params spglib cell atoms d c p ->
  two_symbols spglib cell atoms arg "tI1" "tI2" (pc p <= pa p).
Proof.
  intros spglib cell atoms arg d c p D F C P. unfold two_symbols. symbol_of D F C P.
  destruct (Rleb_spec (pc p) (pa p)); split; intros; auto; lra.
Qed.
Print Assumptions C40_tetragonal.
Theorem C40_orthorhombic_faces : forall spglib cell atoms arg d c p,
  obtain_data spglib cell atoms arg = Ok d -> crystal_family d = "o" -> hpkot_params spglib cell atoms d c p ->
  (centring_type d = "C" -> two_symbols spglib cell atoms arg "oC1" "oC2" (pa p <= pb p)) /\
  (centring_type d = "A" -> two_symbols spglib cell atoms arg "oA1" "oA2" (pb p <= pc p)).
Proof.
  intros spglib cell atoms arg d c p D F P. unfold two_symbols. split; intros C; symbol_of D F C P.
  - destruct (Rleb_spec (pa p) (pb p)); split; intros; auto; lra.
  - destruct (Rleb_spec (pb p) (pc p)); split; intros; auto; lra.
Qed.
Print Assumptions C40_orthorhombic_faces.
(* the face-centred lattices are told apart by the squared inverse lengths; the two conditions exclude each other *)
Theorem C40_orthorhombic_F : forall spglib cell atoms arg d c p,
  obtain_data spglib cell atoms arg = Ok d -> crystal_family d = "o" -> centring_type d = "F" -> hpkot_params spglib cell atoms d c p ->
  let symbol := hpkot_get_extended_bl_symbol spglib cell atoms arg in
  let A := inverse_square (pa p) in let B := inverse_square (pb p) in let C := inverse_square (pc p) in
  (symbol = Ok "oF1" <-> B + C < A) /\ (symbol = Ok "oF2" <-> A + B < C) /\ (symbol = Ok "oF3" <-> A <= B + C /\ C <= A + B) /\
  ~ (B + C < A /\ A + B < C).
Proof.
  intros spglib cell atoms arg d c p D F C P symbol A B CC. assert (POS := params_pos _ _ (proj2 P)).
  assert (IP : forall x, 0 < x -> 0 < inverse_square x) by (intros x X; unfold inverse_square; apply Rinv_0_lt_compat; nra).
  assert (0 < A) by (apply IP; lra). assert (0 < B) by (apply IP; lra). assert (0 < CC) by (apply IP; lra). clear IP.
  unfold symbol. symbol_of D F C P. rewrite !inv_sqr_pos by lra. cbn [bind]. fold A B CC.
  destruct (Rltb_spec (B + CC) A), (Rltb_spec (A + B) CC); repeat split; intros; try discriminate; try reflexivity; try lra.
Qed.
Print Assumptions C40_orthorhombic_F.
(* body-centred: the longest of the three (ties go to the third, then to the first) *)
Theorem C40_orthorhombic_I : forall spglib cell atoms arg d c p,
  obtain_data spglib cell atoms arg = Ok d -> crystal_family d = "o" -> centring_type d = "I" -> hpkot_params spglib cell atoms d c p ->
  let symbol := hpkot_get_extended_bl_symbol spglib cell atoms arg in
  (symbol = Ok "oI1" <-> pa p <= pc p /\ pb p <= pc p) /\
  (symbol = Ok "oI2" <-> pb p <= pa p /\ pc p < pa p) /\
  (symbol = Ok "oI3" <-> pa p < pb p /\ pc p < pb p) /\
  (symbol = Ok "oI1" \/ symbol = Ok "oI2" \/ symbol = Ok "oI3").
Proof.
  intros spglib cell atoms arg d c p D F C P symbol. unfold symbol. symbol_of D F C P.
  destruct (Rleb_spec (pa p) (pc p)), (Rleb_spec (pb p) (pc p)), (Rleb_spec (pb p) (pa p)), (Rleb_spec (pc p) (pa p)),
    (Rleb_spec (pa p) (pb p)), (Rleb_spec (pc p) (pb p)); cbn [andb]; try (exfalso; lra);
  repeat split; intros; try discriminate; try reflexivity; try lra; auto.
Qed.
Print Assumptions C40_orthorhombic_I.
Theorem C40_rhombohedral : forall spglib cell atoms arg d c p,
  obtain_data spglib cell atoms arg = Ok d -> crystal_family d = "h" -> centring_type d = "R" -> hpkot_params spglib cell atoms d c p ->
  two_symbols spglib cell atoms arg "hR1" "hR2" (3 * (pa p * pa p) <= 2 * (pc p * pc p)).
Proof.
  intros spglib cell atoms arg d c p D F C P. assert (POS := params_pos _ _ (proj2 P)). unfold two_symbols. symbol_of D F C P.
  assert (S3 : sqrt 3 * sqrt 3 = 3) by (apply sqrt_sqrt; lra). assert (S2 : sqrt 2 * sqrt 2 = 2) by (apply sqrt_sqrt; lra).
  assert (0 < sqrt 3) by (apply sqrt_lt_R0; lra). assert (0 < sqrt 2) by (apply sqrt_lt_R0; lra).
  assert (X : (sqrt 3 * pa p) * (sqrt 3 * pa p) = 3 * (pa p * pa p)) by (replace (3 * (pa p * pa p)) with ((sqrt 3 * sqrt 3) * (pa p * pa p)) by (rewrite S3; ring); ring).
  assert (Y : (sqrt 2 * pc p) * (sqrt 2 * pc p) = 2 * (pc p * pc p)) by (replace (2 * (pc p * pc p)) with ((sqrt 2 * sqrt 2) * (pc p * pc p)) by (rewrite S2; ring); ring).
  rewrite <- X, <- Y. assert (0 < sqrt 3 * pa p) by (apply Rmult_lt_0_compat; lra). assert (0 < sqrt 2 * pc p) by (apply Rmult_lt_0_compat; lra).
  destruct (Rleb_spec (sqrt 3 * pa p) (sqrt 2 * pc p)); split; intros Q; auto; exfalso; nra.
Qed.
Print Assumptions C40_rhombohedral.
Theorem C40_monoclinic : forall spglib cell atoms arg d c p,
  obtain_data spglib cell atoms arg = Ok d -> crystal_family d = "m" -> centring_type d = "C" -> hpkot_params spglib cell atoms d c p ->
  let symbol := hpkot_get_extended_bl_symbol spglib cell atoms arg in
  let be := pbeta p * TORADIANS in
  let s := pa p * sin be in
  let x := - (pa p * cos be) / pc p + s * s / (pb p * pb p) in
  (symbol = Ok "mC1" <-> pb p <= s) /\ (symbol = Ok "mC2" <-> s < pb p /\ x <= 1) /\ (symbol = Ok "mC3" <-> s < pb p /\ 1 < x).
Proof.
  intros spglib cell atoms arg d c p D F C P symbol be s x. assert (POS := params_pos _ _ (proj2 P)). unfold symbol. symbol_of D F C P. fold be s.
  destruct (Reqb_spec (pc p) 0); [lra|]. destruct (Reqb_spec (pb p) 0); [lra|]. cbn [orb].
  replace (- pa p * cos be / pc p + s / pb p * (s / pb p)) with x by (unfold x; field; lra).
  destruct (Rleb_spec (pb p) s), (Rleb_spec x 1); repeat split; intros; try discriminate; try reflexivity; try lra.
Qed.
Print Assumptions C40_monoclinic.
(* triclinic: all reciprocal angles at least 90, or all of them acute, and nothing in between *)
Theorem C40_triclinic : forall spglib cell atoms arg d c p r q,
  obtain_data spglib cell atoms arg = Ok d -> crystal_family d = "a" -> centring_type d = "P" -> hpkot_params spglib cell atoms d c p ->
  get_reciprocal c = Ok r -> get_params r = Ok q ->
  let symbol := hpkot_get_extended_bl_symbol spglib cell atoms arg in
  (symbol = Ok "aP2" <-> 90 <= palpha q /\ 90 <= pbeta q /\ 90 <= pgamma q) /\
  (symbol = Ok "aP3" <-> palpha q < 90 /\ pbeta q < 90 /\ pgamma q < 90) /\
  (symbol = Ok "aP2" \/ symbol = Ok "aP3").
Proof.
  intros spglib cell atoms arg d c p r q D F C P R Q symbol.
  assert (U : all_acute_or_none q).
  { destruct P as ((ca & G) & P).
    destruct (C35_hpkot_setting _ _ _ "HPKOT" _ _ _ _ (obtain_again _ _ _ _ _ D) F eq_refl G) as (r' & q' & R' & Q' & U & _).
    assert (r' = r) by congruence. subst. assert (q' = q) by congruence. subst. exact U. }
  unfold all_acute_or_none, uniform in U. unfold symbol. symbol_of D F C P. rewrite R. cbn [bind]. rewrite Q. cbn [bind].
  destruct (Rleb_spec 90 (palpha q)), (Rleb_spec 90 (pbeta q)), (Rleb_spec 90 (pgamma q)); cbn [andb]; try (exfalso; lra);
  repeat split; intros; try discriminate; try reflexivity; try lra; auto.
Qed.
Print Assumptions C40_triclinic.

(* For data that belongs to a space group, a result is a documented symbol and starts with the lattice
   type; the internal error is not raised, unless by the external Niggli reduction. *)
Theorem C40_documented : forall spglib cell atoms arg d s,
  obtain_data spglib cell atoms arg = Ok d -> consistent d ->
  hpkot_get_extended_bl_symbol spglib cell atoms arg = Ok s ->
  In s HPKOT_EXTENDED_BL_SYMBOLS /\ exists k, In k ["1"; "2"; "3"] /\ s = String.append (String.append (crystal_family d) (centring_type d)) k.
Proof.
  intros spglib cell atoms arg d s D C H. unfold hpkot_get_extended_bl_symbol in H. rewrite D in H. cbn [bind] in H. cbv zeta in H.
  change (String.append (crystal_family d) (centring_type d)) with (lattice_type d).
  assert (OK : forall lt k, lt = lattice_type d -> In k ["1"; "2"; "3"] -> In (String.append lt k) HPKOT_EXTENDED_BL_SYMBOLS -> Ok (String.append lt k) = Ok s ->
     In s HPKOT_EXTENDED_BL_SYMBOLS /\ exists k, In k ["1"; "2"; "3"] /\ s = String.append (lattice_type d) k).
  { intros lt k -> K I E. injection E as <-. split; auto. exists k. auto. }
  destruct (mem (lattice_type d) ["cI"; "tP"; "oP"; "mP"]) eqn:M.
  { eapply (OK (lattice_type d) "1"); eauto; [cbn; tauto|]. apply mem_true in M. cbn in M. 
    destruct M as [<-|[<-|[<-|[<-|[]]]]]; cbn; tauto. }
  Ltac sym OK E lt H := match type of H with
    | Ok (String (Ascii.Ascii ?a1 ?a2 ?a3 ?a4 ?a5 ?a6 ?a7 ?a8) (String (Ascii.Ascii ?b1 ?b2 ?b3 ?b4 ?b5 ?b6 ?b7 ?b8) ?k)) = Ok _ =>
      apply (OK lt k (eq_sym E)); [cbn; tauto|cbn; tauto|exact H] end.
  destruct (String.eqb_spec (lattice_type d) "cP") as [E|_].
  { destruct (zbetween _ _ _); [sym OK E "cP" H|]. destruct (zbetween _ _ _); [sym OK E "cP" H|discriminate]. }
  destruct (String.eqb_spec (lattice_type d) "cF") as [E|_].
  { destruct (zbetween _ _ _); [sym OK E "cF" H|]. destruct (zbetween _ _ _); [sym OK E "cF" H|discriminate]. }
  destruct (String.eqb_spec (lattice_type d) "hP") as [E|_].
  { destruct (_ || _); sym OK E "hP" H. }
  apply bind_ok in H. destruct H as ([c ca] & _ & H). apply bind_ok in H. destruct H as (p & _ & H).
  destruct (String.eqb_spec (lattice_type d) "tI") as [E|_]; [destruct (Rleb _ _); sym OK E "tI" H|].
  destruct (String.eqb_spec (lattice_type d) "oF") as [E|_].
  { unbind H. unbind H. unbind H. destruct (Rltb _ _); [sym OK E "oF" H|]. destruct (Rltb _ _); sym OK E "oF" H. }
  destruct (String.eqb_spec (lattice_type d) "oI") as [E|_].
  { destruct (_ && _); [sym OK E "oI" H|]. destruct (_ && _); [sym OK E "oI" H|]. destruct (_ && _); [sym OK E "oI" H|discriminate]. }
  destruct (String.eqb_spec (lattice_type d) "oC") as [E|_]; [destruct (Rleb _ _); sym OK E "oC" H|].
  destruct (String.eqb_spec (lattice_type d) "oA") as [E|_]; [destruct (Rleb _ _); sym OK E "oA" H|].
  destruct (String.eqb_spec (lattice_type d) "hR") as [E|_]; [destruct (Rleb _ _); sym OK E "hR" H|].
  destruct (String.eqb_spec (lattice_type d) "mC") as [E|_].
  { destruct (Rleb _ _); [sym OK E "mC" H|]. destruct (_ || _); [discriminate|]. destruct (Rleb _ _); sym OK E "mC" H. }
  destruct (String.eqb_spec (lattice_type d) "aP") as [E|_]; [|discriminate].
  unbind H. unbind H. destruct (_ && _); sym OK E "aP" H.
Qed.
Print Assumptions C40_documented.

Lemma consistent_range d : consistent d -> (1 <= space_group_number d <= 230)%Z.
Proof.
  intros (C & _). assert (Q : (1 <= space_group_number d <= 230)%Z \/ ~ (1 <= space_group_number d <= 230)%Z) by lia. destruct Q as [Q|Q]; auto.
  apply C41_no_other_groups in Q. destruct Q as (Q & _). congruence.
Qed.
Lemma consistent_lattice d : consistent d -> In (lattice_type d) BRAVAIS_LATTICES /\
  family_of (space_group_number d) (crystal_family d) /\ centring_of (space_group_number d) (centring_type d).
Proof.
  intros C. destruct (C41_tables _ (consistent_range _ C)) as (f & c & b & F & E & _ & G & H & _ & B & _). destruct C as (C1 & C2).
  assert (f = crystal_family d) by congruence. assert (c = centring_type d) by congruence. subst. auto.
Qed.
Theorem C40_no_internal_error : forall spglib cell atoms arg d,
  (forall lib m e, spglib = Some lib -> niggli_reduce lib m e <> Err PotentialBugError) ->
  obtain_data spglib cell atoms arg = Ok d -> consistent d ->
  hpkot_get_extended_bl_symbol spglib cell atoms arg <> Err PotentialBugError.
Proof.
  intros spglib cell atoms arg d O D CO H.
  assert (GC : get_conventional spglib cell atoms "HPKOT" (Data d) <> Err PotentialBugError).
  { destruct (String.eqb_spec (crystal_family d) "a") as [F|F].
    - intros G. apply (get_conventional_hpkot_a _ _ _ "HPKOT" _ _ (obtain_again _ _ _ _ _ D) eq_refl F) in G. revert G.
      apply hpkot_a_spec. intros f m e E. unfold lib_niggli in E. destruct spglib as [lib|]; [|discriminate]. cbn in E. injection E as <-. apply O. reflexivity.
    - apply (hpkot_conventional_cell _ _ _ _ _ (obtain_again _ _ _ _ _ D) F). }
  destruct (consistent_lattice _ CO) as (B & FAM & _).
  unfold hpkot_get_extended_bl_symbol in H. rewrite D in H. cbn [bind] in H. cbv zeta in H.
  destruct (mem (lattice_type d) ["cI"; "tP"; "oP"; "mP"]) eqn:M; [discriminate|].
  assert (CUB : forall k, lattice_type d = String "c" k -> in_range (space_group_number d) (195, 230)%Z).
  { intros k E. destruct FAM as (FF & _ & _ & _ & _ & _ & Q). apply Q. unfold lattice_type in E. cbn [families In] in FF.
    repeat (destruct FF as [FF|FF]; [rewrite <- FF in *; cbn in E; first [reflexivity|discriminate]|]). contradiction. }
  destruct (String.eqb_spec (lattice_type d) "cP") as [E|Q1].
  { apply CUB in E. unfold in_range in E. unfold zbetween in H. cbn in E. destruct (_ && _)%bool eqn:X; [discriminate|].
    destruct (_ && _)%bool eqn:Y in H; [discriminate|]. lia. }
  destruct (String.eqb_spec (lattice_type d) "cF") as [E|Q2].
  { apply CUB in E. unfold in_range in E. unfold zbetween in H. cbn in E. destruct (_ && _)%bool eqn:X; [discriminate|].
    destruct (_ && _)%bool eqn:Y in H; [discriminate|]. lia. }
  destruct (String.eqb_spec (lattice_type d) "hP") as [E|Q3]; [destruct (_ || _); discriminate|].
  apply bind_err in H. destruct H as [H|([c ca] & G & H)]; [contradiction|].
  apply bind_err in H. destruct H as [H|(p & P & H)]; [destruct (get_params_cases c) as [(p & Q)|Q]; rewrite Q in H; discriminate|].
  assert (POS := params_pos _ _ P).
  destruct (String.eqb_spec (lattice_type d) "tI"); [discriminate|].
  destruct (String.eqb_spec (lattice_type d) "oF"); [rewrite !inv_sqr_pos in H by lra; discriminate|].
  destruct (String.eqb_spec (lattice_type d) "oI").
  { destruct (Rleb_spec (pa p) (pc p)), (Rleb_spec (pb p) (pc p)), (Rleb_spec (pb p) (pa p)), (Rleb_spec (pc p) (pa p)),
      (Rleb_spec (pa p) (pb p)), (Rleb_spec (pc p) (pb p)); cbn [andb] in H; try discriminate; lra. }
  destruct (String.eqb_spec (lattice_type d) "oC"); [discriminate|].
  destruct (String.eqb_spec (lattice_type d) "oA"); [discriminate|].
  destruct (String.eqb_spec (lattice_type d) "hR"); [discriminate|].
  destruct (String.eqb_spec (lattice_type d) "mC").
  { destruct (Rleb _ _); [discriminate|]. destruct (_ || _); [discriminate|]. destruct (Rleb _ _); discriminate. }
  destruct (String.eqb_spec (lattice_type d) "aP").
  { apply bind_err in H. destruct H as [H|(r & R & H)].
    - destruct (Req_EM_T (det c) 0) as [X|X].
      + rewrite get_reciprocal_err in H by auto. discriminate.
      + rewrite get_reciprocal_ok in H by auto. discriminate.
    - apply bind_err in H. destruct H as [H|(q & Q & H)]; [destruct (get_params_cases r) as [(q & Q)|Q]; rewrite Q in H; discriminate|]. discriminate. }
  apply mem_false in M. cbn in M. unfold BRAVAIS_LATTICES in B. cbn [In] in B.
  intuition congruence.
Qed.
Print Assumptions C40_no_internal_error.
Example C40_case : consistent (data_for mid "o" "P") /\
  hpkot_get_extended_bl_symbol None (mk 1 0 0 0 1 0 0 0 2) one_atom (Data (data_for (mk 1 0 0 0 1 0 0 0 2) "t" "I")) = Ok "tI2".
Proof.
  split; [split; reflexivity|].
  destruct (tI_cell 2) as (S & A & C); try lra.
  assert (P : hpkot_params None (mk 1 0 0 0 1 0 0 0 2) one_atom (data_for (mk 1 0 0 0 1 0 0 0 2) "t" "I") (mk 1 0 0 0 1 0 0 0 2) (params_val (mk 1 0 0 0 1 0 0 0 2))).
  { split; [|apply S]. unfold get_conventional. rewrite one_atom_obtain. cbn [bind]. unfold conventional_structure. cbv zeta.
    change (lower "HPKOT") with "hpkot". cbn [String.eqb Ascii.eqb Bool.eqb orb andb data_for crystal_family bind conventional_cell conventional_positions conventional_types original_types].
    rewrite one_atom_made. cbn [bind]. eauto. }
  apply (C40_tetragonal None (mk 1 0 0 0 1 0 0 0 2) one_atom _ _ _ _ (one_atom_obtain _ _ _ _) eq_refl eq_refl P). lra.
Qed.
