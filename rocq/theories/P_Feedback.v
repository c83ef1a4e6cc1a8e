(* P_Feedback.v : property C52 (the result of a conversion as an argument of the next call). *)
From Verif Require Import Base M_Strings M_Dict T_Atoms M_Atoms M_Cell M_Spglib M_Conventional M_Primitive M_Variation M_Path
  F_Strings F_Voronoi F_Lepage F_Conventional F_Primitive S_Crystal P_Atoms P_Conventional P_Primitive.
Open Scope string_scope.
Open Scope list_scope.
Open Scope R_scope.

(* ---- specification ---- *)
(* new is the dictionary returned by one of the two conversions *)
Definition converted (spglib : option spglib_module) (cell : mat) (atoms : atoms_dict) (arg : data_arg) (new : atoms_dict) : Prop :=
  exists cv c, get_conventional spglib cell atoms cv arg = Ok (c, new) \/ get_primitive spglib cell atoms cv arg = Ok (c, new).
(* every function of the package that takes a crystal refuses this dictionary *)
Definition refused (new : atoms_dict) : Prop :=
  (forall required, validate_atoms new required true = Err ValueError /\ validate_atoms new required false = Ok false) /\
  get_spglib_types new = Err ValueError /\
  (forall r, get_atoms_species new r = Err ValueError) /\
  (forall lib cell e1 e2, get_spglib_data (Some lib) cell new e1 e2 = Err ValueError) /\
  (forall lib cell cv arg, get_conventional lib cell new cv arg = Err ValueError) /\
  (forall lib cell cv arg, get_primitive lib cell new cv arg = Err ValueError) /\
  (forall lib cell arg, sc_get_variation lib cell new arg = Err ValueError) /\
  (forall lib cell arg, hpkot_get_extended_bl_symbol lib cell new arg = Err ValueError) /\
  (forall lib cell arg cv t r, get_path_and_points lib cell new arg cv t r = Err ValueError).
(* spglib's arrays of positions and of types have the same length *)
Definition consistent_lengths (d : spglib_data) : Prop :=
  length (conventional_positions d) = length (conventional_types d) /\ conventional_positions d <> [] /\
  length (primitive_positions d) = length (primitive_types d) /\ primitive_positions d <> [].

(* ---- lemmas ---- *)
Lemma setitem_lists (key : string) (l : list pyval) n (d : atoms_dict) : Forall (fun kv => exists l, snd kv = PList l /\ length l = n) d -> length l = n ->
  Forall (fun kv => exists l, snd kv = PList l /\ length l = n) (setitem key (PList l) d).
Proof.
  intros F L. induction d as [|[k w] d IHd]; cbn; [repeat constructor; cbn; eauto|]. inversion F as [|? ? F1 F2]; subst.
  destruct (String.eqb key k); constructor; cbn; eauto.
Qed.
Lemma populate_lists mapping types todo : forall acc n, populate mapping types todo acc = Ok n ->
  Forall (fun kv => exists l, snd kv = PList l /\ length l = length types) acc ->
  Forall (fun kv => exists l, snd kv = PList l /\ length l = length types) n.
Proof.
  induction todo as [|[key v] todo IH]; intros acc n H F; cbn [populate] in H; [injection H as <-; exact F|].
  destruct (String.eqb key "positions"); [eauto|]. apply bind_ok in H. destruct H as (l & L & H). apply IH in H; auto.
  apply mapM_ok in L. apply Forall2_len in L.
  apply setitem_lists; auto.
Qed.

(* the values of the new dictionary are lists with an element per atom *)
Lemma populate_only_lists mapping types todo : forall (acc n : atoms_dict), populate mapping types todo acc = Ok n ->
  Forall (fun kv => exists l, snd kv = PList l) acc -> Forall (fun kv => exists l, snd kv = PList l) n.
Proof.
  induction todo as [|[key v] todo IH]; intros acc n H F; cbn [populate] in H; [injection H as <-; exact F|].
  destruct (String.eqb key "positions"); [eauto|]. apply bind_ok in H. destruct H as (l & L & H). apply IH in H; auto.
  clear -F. induction acc as [|[k w] d IHd]; cbn; [repeat constructor; cbn; eauto|]. inversion F as [|? ? F1 F2]; subst.
  destruct (String.eqb key k); constructor; cbn; eauto.
Qed.
Lemma made_lists mapping ps types atoms new : make_atoms mapping ps types atoms = Ok new ->
  Forall (fun kv => exists l, snd kv = PList l) new /\
  (length ps = length types -> Forall (fun kv => exists l, snd kv = PList l /\ length l = length types) new).
Proof.
  unfold make_atoms. intros H. apply bind_ok in H. destruct H as (n0 & P & H). injection H as <-. split.
  - apply populate_only_lists in P; [|repeat constructor; cbn; eauto; eexists; reflexivity].
    destruct (lookup "spglib_types" n0); [exact P|]. generalize "spglib_types". intros key. clear -P. induction n0 as [|[k w] d IHd]; cbn; [repeat constructor; cbn; eauto|].
    inversion P as [|? ? F1 F2]; subst. destruct (String.eqb key k); constructor; cbn; eauto.
  - intros L. apply populate_lists in P.
    + destruct (lookup "spglib_types" n0); [exact P|]. apply setitem_lists; [exact P|rewrite map_length; reflexivity].
    + repeat constructor. cbn. eexists. split; [reflexivity|]. rewrite map_length. exact L.
Qed.
Lemma validation_refused new : (forall required, ~ valid_atoms new required) -> Forall (fun kv => exists l, snd kv = PList l) new -> refused new.
Proof.
  intros NV F.
  assert (V : forall required, validate_atoms new required true = Err ValueError /\ validate_atoms new required false = Ok false).
  { intros req. destruct (C29_modes_agree new req) as [(A & _)|((e & A & _) & B)].
    - apply C29_accepts_exactly_valid in A. exfalso. eapply NV; eauto.
    - split; [|exact B]. destruct (C29_error_kinds _ _ _ A) as (K1 & K2).
      assert (NT : e <> TypeError).
      { intros ->. destruct (proj1 K1 eq_refl) as (k & v & I & S). rewrite Forall_forall in F. destruct (F _ I) as (l & E). cbn in E. subst v.
        apply (S (length l)). left. eauto. }
      rewrite A, (K2 NT). reflexivity. }
  split; [exact V|]. split; [unfold get_spglib_types; rewrite (proj1 (V [])); reflexivity|].
  split; [intros r; unfold get_atoms_species; rewrite (proj1 (V _)); reflexivity|].
  split; [intros; unfold get_spglib_data; rewrite (proj1 (V _)); reflexivity|].
  assert (O : forall lib cell arg, obtain_data lib cell new arg = Err ValueError) by (intros; unfold obtain_data; rewrite (proj1 (V _)); reflexivity).
  split; [intros; unfold get_conventional; rewrite O; reflexivity|].
  split; [intros; unfold get_primitive; rewrite O; reflexivity|].
  split; [intros; unfold sc_get_variation; rewrite O; reflexivity|].
  split; [intros; unfold hpkot_get_extended_bl_symbol; rewrite O; reflexivity|].
  intros; unfold get_path_and_points; rewrite O; reflexivity.
Qed.
Lemma converted_made spglib cell atoms arg new : converted spglib cell atoms arg new ->
  exists d mapping ps types, obtain_data spglib cell atoms arg = Ok d /\ make_atoms mapping ps types atoms = Ok new /\
    (mapping = last_index (original_types d) 0 \/ mapping = first_index (original_types d) 0).
Proof.
  intros (cv & c & [H|H]).
  - apply get_conventional_inv in H. destruct H as (d & ps & ts & D & _ & M). eexists d, _, ps, ts. split; [exact D|]. split; [exact M|]. auto.
  - unfold get_primitive in H. apply bind_ok in H. destruct H as (d & D & H). apply bind_ok in H. destruct H as ([[c0 ps] ts] & S & H).
    apply bind_ok in H. destruct H as (n & MA & H). injection H as <- <-. eexists d, _, ps, ts. split; [exact D|]. split; [exact MA|]. auto.
Qed.

(* ---- C52 ---- *)
(* Atoms without "spglib_types" (names or species only): the result, which then has types of numpy's
   integers, is refused by all of the package. *)
Theorem C52_default_refuted : forall spglib cell atoms arg new v,
  NoDup (keys atoms) -> lookup "spglib_types" atoms = None ->
  converted spglib cell atoms arg new -> lookup "spglib_types" new = Some v -> elements v <> [] -> refused new.
Proof.
  intros spglib cell atoms arg new v ND N C L NE. destruct (converted_made _ _ _ _ _ C) as (d & mapping & ps & types & D & M & _).
  apply validation_refused; [|apply (made_lists _ _ _ _ _ M)].
  intros req V. destruct (make_atoms_spec _ _ _ _ _ ND M) as (_ & _ & T & _). specialize (T N). rewrite T in L. injection L as <-.
  destruct types as [|t types]; [cbn in NE; congruence|].
  destruct (va_types _ _ V _ (PNpInt t) T) as [(z & Z & _)|Z]; [left; eexists; split; [reflexivity|left; reflexivity]|discriminate|discriminate].
Qed.
Print Assumptions C52_default_refuted.

Lemma made_valid mapping ps types atoms new v : NoDup (keys atoms) -> valid_atoms atoms [] -> lookup "spglib_types" atoms = Some v ->
  make_atoms mapping ps types atoms = Ok new -> length ps = length types -> ps <> [] ->
  forall required, (forall k, In k required -> In k (keys new)) -> valid_atoms new required.
Proof.
  intros ND V S M L NE required R. destruct (make_atoms_spec _ _ _ _ _ ND M) as (P & I & _ & O).
  destruct (made_lists _ _ _ _ _ M) as (_ & F). specialize (F L). rewrite Forall_forall in F.
  assert (K : forall key w x, key <> "positions" -> lookup key new = Some w -> item w x -> exists w', lookup key atoms = Some w' /\ item w' x).
  { intros key w x NP LK IT. destruct (lookup key atoms) as [w'|] eqn:LA.
    - destruct (I key w' NP LA) as (l & LN & IB). rewrite LN in LK. injection LK as <-. exists w'. split; auto.
      destruct IT as [(l' & E & IT)|(s & c & E & _)]; [injection E as <-|discriminate].
      apply in_elements. clear -IB IT. induction IB as [|t y ts l (j & _ & J) IB IH]; [destruct IT|]. destruct IT as [<-|IT]; auto. eapply nth_error_In; eauto.
    - destruct (string_dec key "spglib_types") as [->|NT]; [congruence|]. rewrite (O key NP NT LA) in LK. discriminate. }
  constructor.
  - exists (length types). intros k w IN. destruct (F _ IN) as (l & E & LL). cbn in E. left. eauto.
  - intros k IK. apply lookup_in. auto.
  - intros w LK. rewrite P in LK. injection LK as <-. eexists. split; [reflexivity|]. split.
    + destruct ps; [congruence|discriminate].
    + intros r IR. apply in_map_iff in IR. destruct IR as (p & <- & _). eexists _, _, _. split; [reflexivity|]. unfold F_Atoms.scalar. repeat split; intros ?; discriminate.
  - intros w x LK IT. destruct (K "names" w x) as (w' & LA & IT'); [discriminate|auto|auto|]. eapply (va_names _ _ V); eauto.
  - intros w x LK IT. destruct (K "species" w x) as (w' & LA & IT'); [discriminate|auto|auto|]. eapply (va_species _ _ V); eauto.
  - intros w x LK IT. destruct (K "spglib_types" w x) as (w' & LA & IT'); [discriminate|auto|auto|]. eapply (va_types _ _ V); eauto.
Qed.
Lemma obtain_valid spglib cell atoms arg d : obtain_data spglib cell atoms arg = Ok d -> valid_atoms atoms ["positions"].
Proof.
  unfold obtain_data. intros H. apply bind_ok in H. destruct H as (b & V & _). apply C29_accepts_exactly_valid with (raise_errors := true).
  destruct (C29_modes_agree atoms ["positions"]) as [(A & _)|((e & A & _) & _)]; congruence.
Qed.
Lemma conventional_lengths niggli d cv c ps ts : consistent_lengths d -> conventional_structure niggli d cv = Ok (c, ps, ts) ->
  length ps = length ts /\ ps <> [].
Proof.
  intros (L1 & N1 & L2 & N2) E.
  assert (RX : forall a b p q, reexpress p a b = Ok q -> length q = length p).
  { intros a b p q H. apply reexpress_ok in H. symmetry. eapply Forall2_len; eauto. }
  assert (NE : forall (p q : list vec), length q = length p -> p <> [] -> q <> []) by (intros [|] [|]; cbn; congruence).
  unfold conventional_structure in E. cbv zeta in E.
  destruct (String.eqb_spec (lower cv) "spglib") as [SG|SG]; cbn [orb] in E.
  { rewrite SG in E. change (String.eqb "spglib" "hpkot") with false in E. cbn [andb] in E. injection E as <- <- <-; auto. }
  destruct (String.eqb (lower cv) "hpkot"); cbn [andb] in E.
  { destruct (String.eqb (crystal_family d) "a"); [|injection E as <- <- <-; auto].
    apply bind_ok in E. destruct E as (c0 & _ & E). apply bind_ok in E. destruct E as (q & Q & E). injection E as <- <- <-.
    apply RX in Q. split; [congruence|eauto]. }
  destruct (String.eqb (lower cv) "sc"); [|discriminate].
  destruct (String.eqb (crystal_family d) "h" && String.eqb (centring_type d) "R");
    apply bind_ok in E; destruct E as (c0 & _ & E); apply bind_ok in E; destruct E as (q & Q & E); injection E as <- <- <-;
    apply RX in Q; (split; [congruence|eauto]).
Qed.
(* Atoms with "spglib_types": the result is accepted, with the types reported by the conversion. *)
Theorem C52_given_types : forall spglib cell atoms arg d new v,
  NoDup (keys atoms) -> lookup "spglib_types" atoms = Some v -> obtain_data spglib cell atoms arg = Ok d ->
  consistent_lengths d -> 0 <= symprec d ->
  converted spglib cell atoms arg new ->
  (forall required raise_errors, (forall k, In k required -> In k (keys new)) -> validate_atoms new required raise_errors = Ok true) /\
  exists w, get_spglib_types new = Ok w /\ lookup "spglib_types" new = Some w.
Proof.
  intros spglib cell atoms arg d new v ND S D (L1 & N1 & L2 & N2) SP C.
  assert (X : exists mapping ps types, make_atoms mapping ps types atoms = Ok new /\ length ps = length types /\ ps <> []).
  { destruct C as (cv & c & [H|H]).
    - apply get_conventional_inv in H. destruct H as (d' & ps & ts & D' & E & M). replace d' with d in * by congruence.
      eexists _, ps, ts. split; [exact M|]. eapply conventional_lengths; eauto. repeat split; auto.
    - unfold get_primitive in H. rewrite D in H. cbn [bind] in H. apply bind_ok in H. destruct H as ([[c0 ps] ts] & E & H).
      apply bind_ok in H. destruct H as (n & MA & H). assert (n = new) by congruence. subst n. eexists _, ps, ts. split; [exact MA|].
      unfold primitive_structure in E. cbv zeta in E. destruct (String.eqb (lower cv) "spglib"); [injection E as <- <- <-; auto|].
      destruct (mem (lower cv) ["hpkot"; "sc"]); [|discriminate]. apply bind_ok in E. destruct E as ([cc ca] & _ & E).
      unbind E. apply bind_ok in E. destruct E as (pv & _ & E). apply bind_ok in E. destruct E as (cps & _ & E).
      apply bind_ok in E. destruct E as (nu & _ & E). apply bind_ok in E. destruct E as (tv & _ & E).
      apply bind_ok in E. destruct E as ([ps' ts'] & U & E). injection E as <- <- <-.
      assert (NN : nu <> []). { intros ->. unfold get_unique in U. cbn in U. discriminate. }
      apply get_unique_spec in U; auto. destruct U as (_ & idx & _ & FP & FT & _ & CO & _).
      split; [rewrite <- (Forall2_len _ _ _ FT), <- (Forall2_len _ _ _ FP); reflexivity|].
      intros ->. inversion FP; subst. destruct nu as [|q nu]; [congruence|]. destruct (CO O q eq_refl) as (i & p & [] & _). }
  destruct X as (mapping & ps & types & M & LL & NE).
  assert (V : valid_atoms atoms []) by (destruct (obtain_valid _ _ _ _ _ D); constructor; auto; intros k []).
  assert (W := made_valid mapping ps types atoms new v ND V S M LL NE). split.
  - intros required r R. apply C29_accepts_exactly_valid. auto.
  - destruct (make_atoms_spec _ _ _ _ _ ND M) as (_ & I & _). destruct (I "spglib_types" v) as (l & LN & _); [discriminate|exact S|].
    exists (PList l). split; [|exact LN]. unfold get_spglib_types.
    rewrite (proj2 (C29_accepts_exactly_valid new [] true)); [|apply W; intros k []]. cbn [bind]. rewrite LN. reflexivity.
Qed.
Print Assumptions C52_given_types.

(* non-vacuous: a crystal of one atom named Fe1, without its type and with it *)
Example C52_case : forall cell, exists new, converted None cell one_atom (Data (data_for cell "o" "P")) new /\
  lookup "spglib_types" one_atom = None /\ NoDup (keys one_atom) /\ exists v, lookup "spglib_types" new = Some v /\ elements v <> [].
Proof.
  intros cell. eexists. split.
  { exists "spglib". eexists. left. unfold get_conventional. rewrite one_atom_obtain. cbn [bind].
    change (conventional_structure (lib_niggli None) (data_for cell "o" "P") "spglib") with (Ok (cell, [vzero], [1%Z])). cbn [bind].
    change (original_types (data_for cell "o" "P")) with [1%Z]. rewrite one_atom_made. reflexivity. }
  split; [reflexivity|]. split; [repeat constructor; cbn; intuition discriminate|]. eexists. split; [reflexivity|discriminate].
Qed.
Definition one_typed_atom : atoms_dict := one_atom ++ [("spglib_types", PList [PInt 1])].
Example C52_typed_case : forall cell, exists new, converted None cell one_typed_atom (Data (data_for cell "o" "P")) new /\
  NoDup (keys one_typed_atom) /\ consistent_lengths (data_for cell "o" "P") /\ 0 <= symprec (data_for cell "o" "P").
Proof.
  intros cell. assert (O : obtain_data None cell one_typed_atom (Data (data_for cell "o" "P")) = Ok (data_for cell "o" "P")).
  { apply (obtain_own None cell one_typed_atom (data_for cell "o" "P") (PList [PList [PInt 0; PInt 0; PInt 0]]) (PList [PInt 1])); reflexivity. }
  eexists. split.
  { exists "spglib". eexists. left. unfold get_conventional. rewrite O. cbn [bind].
    change (conventional_structure (lib_niggli None) (data_for cell "o" "P") "spglib") with (Ok (cell, [vzero], [1%Z])). cbn [bind].
    change (original_types (data_for cell "o" "P")) with [1%Z]. reflexivity. }
  split; [repeat constructor; cbn; intuition discriminate|]. split; [repeat split; discriminate|]. cbn. lra.
Qed.
