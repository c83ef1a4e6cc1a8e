(* P_Atoms.v : properties C27-C30 *)
From Verif Require Import Base M_Strings M_Dict F_Strings F_Voronoi F_Lepage F_Kpoints T_Atoms M_Atoms F_Atoms.
Open Scope string_scope.
Open Scope list_scope.

(* ================= C29: validate_atoms ================= *)
Theorem C29_modes_agree : forall atoms required,
  (validate_atoms atoms required true = Ok true /\ validate_atoms atoms required false = Ok true) \/
  ((exists e, validate_atoms atoms required true = Err e /\ (e = TypeError \/ e = ValueError)) /\
   validate_atoms atoms required false = Ok false).
Proof. apply validate_modes. Qed.
Print Assumptions C29_modes_agree.

(* What a valid atoms dictionary is, independently of the order of the checks. *)
Definition sized (v : pyval) (n : nat) : Prop :=
  (exists l, v = PList l /\ length l = n) \/ (exists s, v = PStr s /\ String.length s = n).
Definition item (v x : pyval) : Prop :=
  (exists l, v = PList l /\ In x l) \/ (exists s c, v = PStr s /\ x = PStr (String c "") /\ exists a b, s = (a ++ String c b)%string).
Definition is_int_ge1 (x : pyval) : Prop := (exists z, x = PInt z /\ (1 <= z)%Z) \/ x = PBool true.
Record valid_atoms (atoms : atoms_dict) (required : list string) : Prop := {
  va_sized : exists n, forall k v, In (k, v) atoms -> sized v n;
  va_required : forall k, In k required -> exists v, lookup k atoms = Some v;
  va_positions : forall v, lookup "positions" atoms = Some v ->
     exists rows, v = PList rows /\ rows <> [] /\
       forall r, In r rows -> exists a b c, r = PList [a; b; c] /\ scalar a /\ scalar b /\ scalar c;
  va_names : forall v x, lookup "names" atoms = Some v -> item v x -> exists s, x = PStr s;
  va_species : forall v x, lookup "species" atoms = Some v -> item v x -> exists s, x = PStr s /\ (s = "X" \/ In s ATOM_SPECIES);
  va_types : forall v x, lookup "spglib_types" atoms = Some v -> item v x -> is_int_ge1 x
}.

Lemma py_len_sized v n : py_len v = Ok n <-> sized v n.
Proof.
  unfold sized. destruct v; cbn; split; intros H; try discriminate.
  all: try (destruct H as [(l' & H & _)|(s' & H & _)]; discriminate).
  - right. exists s. split; auto. congruence.
  - destruct H as [(l' & H & _)|(s' & H & L)]; [discriminate|]. injection H as ->. congruence.
  - left. exists l. split; auto. congruence.
  - destruct H as [(l' & H & L)|(s' & H & _)]; [|discriminate]. injection H as ->. congruence.
Qed.
Lemma in_chars s x : In x (chars s) <-> exists a c b, s = (a ++ String c b)%string /\ x = String c "".
Proof.
  induction s as [|d s IH]; cbn [chars In].
  - split; [tauto|]. intros (a & c & b & H & _). destruct a; discriminate.
  - rewrite IH. split.
    + intros [<-|(a & c & b & -> & ->)]; [exists "", d, s; auto|exists (String d a), c, b; auto].
    + intros (a & c & b & H & ->). destruct a as [|e a]; cbn in H; injection H as -> H; [left; auto|right; exists a, c, b; auto].
Qed.
Lemma in_elements v x : In x (elements v) <-> item v x.
Proof.
  unfold item. destruct v; cbn [elements]; try (split; [intros []|intros [(l' & H & _)|(s' & c & H & _)]; discriminate]).
  - rewrite in_map_iff. split.
    + intros (y & <- & H). apply in_chars in H. destruct H as (a & c & b & -> & ->). right. exists (a ++ String c b)%string, c. repeat split; eauto.
    + intros [(l' & H & _)|(s' & c & H & -> & a & b & E)]; [discriminate|]. injection H as ->. exists (String c ""). split; auto. apply in_chars. eauto 6.
  - split; [intros H; left; eauto|]. intros [(l' & H & I)|(s' & c & H & _)]; [injection H as ->; auto|discriminate].
Qed.
Lemma check_required_ok r atoms req k : check_required r atoms req k = Ok true <->
  (forall x, In x req -> exists v, lookup x atoms = Some v) /\ k = Ok true.
Proof.
  induction req as [|x req IH]; cbn [check_required].
  - split; [intros H; split; [intros ? []|auto]|tauto].
  - destruct (mem x (keys atoms)) eqn:E.
    + rewrite IH. apply mem_true in E. apply lookup_in in E. split; intros [A B]; split; auto; [intros y [<-|Hy]; auto|intros y Hy; apply A; right; auto].
    + split; [destruct r; discriminate|]. intros [A _]. apply mem_false in E. exfalso. apply E. apply lookup_in. apply A. left; auto.
Qed.
Lemma check_names_ok r l k : check_names r l k = Ok true <-> (forall x, In x l -> exists s, x = PStr s) /\ k = Ok true.
Proof.
  induction l as [|x l IH]; cbn [check_names].
  - split; [intros H; split; [intros ? []|auto]|tauto].
  - destruct x; try (split; [destruct r; discriminate|]; intros [A _]; destruct (A _ (or_introl eq_refl)); discriminate).
    rewrite IH. split; intros [A B]; split; auto; [intros y [<-|Hy]; eauto|intros y Hy; apply A; right; auto].
Qed.
Lemma check_species_ok r l k : check_species r l k = Ok true <->
  (forall x, In x l -> exists s, x = PStr s /\ (s = "X" \/ In s ATOM_SPECIES)) /\ k = Ok true.
Proof.
  induction l as [|x l IH]; cbn [check_species].
  - split; [intros H; split; [intros ? []|auto]|tauto].
  - destruct x; try (split; [destruct r; discriminate|]; intros [A _]; destruct (A _ (or_introl eq_refl)) as (? & ? & _); discriminate).
    destruct (String.eqb_spec s "X") as [->|NX]; cbn [negb andb].
    + rewrite IH. split; intros [A B]; split; auto; [intros y [<-|Hy]; eauto|intros y Hy; apply A; right; auto].
    + destruct (mem s ATOM_SPECIES) eqn:E; cbn [negb].
      * apply mem_true in E. rewrite IH. split; intros [A B]; split; auto; [intros y [<-|Hy]; eauto|intros y Hy; apply A; right; auto].
      * apply mem_false in E. split; [destruct r; discriminate|]. intros [A _]. destruct (A _ (or_introl eq_refl)) as (s' & H & [?|?]); injection H as <-; contradiction.
Qed.
Lemma check_types_ok r l k : check_types r l k = Ok true <-> (forall x, In x l -> is_int_ge1 x) /\ k = Ok true.
Proof.
  induction l as [|x l IH]; cbn [check_types].
  - split; [intros H; split; [intros ? []|auto]|tauto].
  - destruct x; try (split; [destruct r; discriminate|]; intros [A _]; destruct (A _ (or_introl eq_refl)) as [(? & ? & _)|?]; discriminate).
    + destruct (Z.ltb_spec z 1).
      * split; [destruct r; discriminate|]. intros [A _]. destruct (A _ (or_introl eq_refl)) as [(z' & E & ?)|?]; [injection E as <-; lia|discriminate].
      * rewrite IH. split; intros [A B]; split; auto; [intros y [<-|Hy]; [left; eauto|auto]|intros y Hy; apply A; right; auto].
    + destruct b; cbn [negb].
      * rewrite IH. split; intros [A B]; split; auto; [intros y [<-|Hy]; [right; auto|auto]|intros y Hy; apply A; right; auto].
      * split; [destruct r; discriminate|]. intros [A _]. destruct (A _ (or_introl eq_refl)) as [(z' & E & ?)|?]; discriminate.
Qed.
Lemma check_positions_ok r v k : check_positions r v k = Ok true <->
  (exists rows, v = PList rows /\ rows <> [] /\ forall r, In r rows -> exists a b c, r = PList [a; b; c] /\ scalar a /\ scalar b /\ scalar c) /\ k = Ok true.
Proof.
  unfold check_positions. destruct (np_shape v) as [s|] eqn:E.
  - destruct (negb (Nat.eqb (length s) 2) || negb (Nat.eqb (nth 1 s 0%nat) 3)) eqn:Q.
    + split; [destruct r; discriminate|]. intros [(l & -> & N & A) _].
      rewrite (proj2 (shape_2d (PList l) (length l))) in E by eauto 8. injection E as <-. discriminate.
    + apply orb_false_iff in Q. destruct Q as [Q1 Q2]. apply negb_false_iff in Q1, Q2. apply Nat.eqb_eq in Q1, Q2.
      destruct s as [|n [|m [|]]]; try discriminate. cbn in Q2. subst m. apply shape_2d in E. destruct E as (l & -> & _ & N & A).
      split; intros H; [split; [eauto 8|auto]|tauto].
  - split; [destruct r; discriminate|]. intros [(l & -> & N & A) _].
    rewrite (proj2 (shape_2d (PList l) (length l))) in E by eauto 8. discriminate.
Qed.
Lemma when_ok key atoms f k (P : pyval -> Prop) : (forall v k, f v k = Ok true <-> P v /\ k = Ok true) ->
  when_present key atoms f k = Ok true <-> (forall v, lookup key atoms = Some v -> P v) /\ k = Ok true.
Proof.
  intros F. unfold when_present. destruct (lookup key atoms) as [v|].
  - rewrite F. split; intros [A B]; split; auto. intros w H. congruence.
  - split; intros H; [split; [discriminate|auto]|tauto].
Qed.
Lemma lengths_same (l : list nat) : Nat.ltb 1 (length (nodup Nat.eq_dec l)) = false <-> exists n, forall m, In m l -> m = n.
Proof.
  rewrite Nat.ltb_ge. split.
  - intros H. destruct (nodup Nat.eq_dec l) as [|n [|m t]] eqn:E.
    + exists O. intros m Hm. apply (nodup_In Nat.eq_dec) in Hm. rewrite E in Hm. destruct Hm.
    + exists n. intros m Hm. apply (nodup_In Nat.eq_dec) in Hm. rewrite E in Hm. destruct Hm as [<-|[]]; auto.
    + cbn in H. lia.
  - intros [n H]. pose proof (NoDup_nodup Nat.eq_dec l) as N. destruct (nodup Nat.eq_dec l) as [|a [|b t]] eqn:E; cbn; try lia. exfalso.
    inversion N; subst. apply H2. left.
    transitivity n; [|symmetry]; apply H; apply (nodup_In Nat.eq_dec); rewrite E; cbn; auto.
Qed.

Theorem C29_accepts_exactly_valid : forall atoms required raise_errors,
  validate_atoms atoms required raise_errors = Ok true <-> valid_atoms atoms required.
Proof.
  intros atoms req r. unfold validate_atoms. destruct (collect_lengths r atoms []) as [x|ns] eqn:E.
  - apply collect_lengths_err in E. destruct E as [-> X]. split; [destruct r; discriminate|]. intros [[n V] _ _ _ _ _]. exfalso.
    apply Exists_exists in X. destruct X as ([k v] & I & X). cbn in X. specialize (V _ _ I). apply py_len_sized in V. congruence.
  - apply collect_lengths_ok in E. cbn [skipn firstn length] in E. destruct E as [E _].
    destruct (Nat.ltb 1 (length (nodup Nat.eq_dec ns))) eqn:L.
    + split; [destruct r; discriminate|]. intros [[n V] _ _ _ _ _]. exfalso.
      assert (X : exists n, forall m, In m ns -> m = n).
      { exists n. intros m Hm. apply In_nth_error in Hm. destruct Hm as [i Hi]. destruct (Forall2_nth_r _ _ _ E _ _ Hi) as ([k v] & I & Q).
        apply nth_error_In in I. specialize (V _ _ I). apply py_len_sized in V. cbn in Q. congruence. }
      apply lengths_same in X. congruence.
    + apply lengths_same in L. destruct L as [n L].
      rewrite check_required_ok.
      rewrite (when_ok _ _ _ _ _ (fun v k => check_positions_ok r v k)).
      rewrite (when_ok _ _ _ _ (fun v => forall x, item v x -> exists s, x = PStr s)).
      2:{ intros v k. rewrite check_names_ok. setoid_rewrite in_elements. reflexivity. }
      rewrite (when_ok _ _ _ _ (fun v => forall x, item v x -> exists s, x = PStr s /\ (s = "X" \/ In s ATOM_SPECIES))).
      2:{ intros v k. rewrite check_species_ok. setoid_rewrite in_elements. reflexivity. }
      rewrite (when_ok _ _ _ _ (fun v => forall x, item v x -> is_int_ge1 x)).
      2:{ intros v k. rewrite check_types_ok. setoid_rewrite in_elements. reflexivity. }
      split.
      * intros (A & B & C & D & F & _). split; auto.
        -- exists n. intros k v I. apply In_nth_error in I. destruct I as [i I]. destruct (Forall2_nth_l _ _ _ E _ _ I) as (m & Hm & Q).
           cbn in Q. apply nth_error_In in Hm. rewrite (L _ Hm) in Q. apply py_len_sized. auto.
        -- intros v x H. apply C; auto.
        -- intros v x H. apply D; auto.
        -- intros v x H. apply F; auto.
      * intros [_ A B C D F]. repeat split; auto; intros v H; intros; eauto.
Qed.
Print Assumptions C29_accepts_exactly_valid.

(* TypeError is raised exactly for a value without a length; everything else is a ValueError. *)
Theorem C29_error_kinds : forall atoms required e, validate_atoms atoms required true = Err e ->
  (e = TypeError <-> exists k v, In (k, v) atoms /\ forall n, ~ sized v n) /\
  (e <> TypeError -> e = ValueError).
Proof.
  intros atoms req e H.
  assert (VE : e = TypeError \/ e = ValueError).
  { destruct (validate_modes atoms req) as [[A _]|[(e' & A & B) _]]; [congruence|]. rewrite A in H. injection H as ->. auto. }
  split; [|tauto]. unfold validate_atoms in H. destruct (collect_lengths true atoms []) as [x|ns] eqn:E.
  - apply collect_lengths_err in E. destruct E as [-> X]. split; [intros _|congruence].
    apply Exists_exists in X. destruct X as ([k v] & I & X). exists k, v. split; auto. intros n Hn. apply py_len_sized in Hn. cbn in X. congruence.
  - apply collect_lengths_ok in E. cbn [skipn firstn length] in E. destruct E as [E _].
    split.
    + intros ->. exfalso. destruct (Nat.ltb 1 (length (nodup Nat.eq_dec ns))); [discriminate|].
      pose proof (content_agree atoms req) as A. unfold content_checks in A.
      destruct A as [[A _]|[A _]]; rewrite A in H; discriminate.
    + intros (k & v & I & N). exfalso. apply In_nth_error in I. destruct I as [i I].
      destruct (Forall2_nth_l _ _ _ E _ _ I) as (m & _ & Q). cbn in Q. apply py_len_sized in Q. exact (N _ Q).
Qed.
Print Assumptions C29_error_kinds.

(* The statement of the documentation "atoms["positions"] is array-like of numbers of shape (N, 3)"
   is not checked: strings pass; an empty structure does not; booleans pass as types. *)
Theorem C29_positions_numeric_refuted : exists atoms, validate_atoms atoms ["positions"] true = Ok true /\
  exists s, lookup "positions" atoms = Some (PList [PList [PStr s; PNone; PInt 0]]).
Proof. exists [("positions", PList [PList [PStr "a"; PNone; PInt 0]])]. split; [vm_compute; reflexivity|exists "a"; reflexivity]. Qed.
Theorem C29_empty_structure_refuted : validate_atoms [("names", PList []); ("positions", PList [])] [] true = Err ValueError.
Proof. vm_compute. reflexivity. Qed.
Example C29_case :
  validate_atoms [("names", PList [PStr "Cr1"; PStr "Cr2"]); ("positions", PList [PList [PInt 0; PInt 0; PInt 0]; PList [PInt 1; PInt 0; PInt 0]]);
                  ("species", PList [PStr "Cr"; PStr "X"]); ("mass", PList [PFloat 1; PNone])] ["names"] false = Ok true
  /\ validate_atoms [("names", PList [PStr "Cr1"; PStr "Cr2"]); ("species", PList [PStr "CR"; PStr "X"])] [] false = Ok false.
Proof. split; cbv -[R1]; reflexivity. Qed.

(* ================= C27: species ================= *)
Theorem C27_sound : forall name raise_on_fail s, get_atom_species name raise_on_fail = Ok s ->
  (In s ATOM_SPECIES /\ occurs s name) \/ (s = "X" /\ raise_on_fail = false /\ forall t, In t ATOM_SPECIES -> ~ occurs t name).
Proof.
  intros name r s. unfold get_atom_species. pose proof (deduce_cases name) as D. cbn zeta in D.
  destruct (String.eqb_spec (deduce name "X" ATOM_SPECIES) "X") as [E|E].
  - destruct r; [discriminate|]. intros H. assert (X : s = deduce name "X" ATOM_SPECIES) by congruence. rewrite X, E. right. destruct D as [(_ & _ & N)|[_ D]]; [contradiction|]. auto.
  - intros H. assert (X : s = deduce name "X" ATOM_SPECIES) by congruence. rewrite X. left. destruct D as [(A & B & _)|[N _]]; [auto|contradiction].
Qed.
Print Assumptions C27_sound.

Theorem C27_fails_iff_none : forall name e, get_atom_species name true = Err e <->
  e = FailedToDeduceAtomSpecies /\ forall t, In t ATOM_SPECIES -> ~ occurs t name.
Proof.
  intros name e. unfold get_atom_species. pose proof (deduce_cases name) as D. cbn zeta in D.
  destruct (String.eqb_spec (deduce name "X" ATOM_SPECIES) "X") as [E|E]; split.
  - intros H. destruct D as [(_ & _ & N)|[_ D]]; [contradiction|]. split; [congruence|auto].
  - intros [-> _]. reflexivity.
  - discriminate.
  - intros [_ N]. exfalso. destruct D as [(A & B & _)|[Q _]]; [exact (N _ A B)|contradiction].
Qed.
Print Assumptions C27_fails_iff_none.

(* Which of several occurring species is returned: the two-letter one that comes first in the
   table; without two-letter ones, the one-letter one that comes last in the table. *)
Definition before (x y : string) (l : list string) : Prop := exists a b c, l = a ++ x :: b ++ y :: c.
Lemma choice_generic : forall table name s t, (forall x, In x table -> String.length x = 1%nat \/ String.length x = 2%nat) ->
  deduce name "X" table = s -> In t table -> occurs t name -> t <> s ->
  (String.length s = 2%nat /\ (String.length t = 1%nat \/ String.length t = 2%nat /\ before s t table)) \/
  (String.length s = 1%nat /\ String.length t = 1%nat /\ before t s table).
Proof.
  intros table name s t TL E It Ot Nt. pose proof (TL t It) as Lt.
  destruct (deduce_spec name table "X") as [(t1 & x & t2 & T & O & L2 & F & D)|(N & [(t1 & x & t2 & T & O & F & D)|[F D]])].
  - rewrite E in D. subst x. left. split; auto. destruct Lt as [Lt|Lt]; [auto|]. right. split; auto.
    rewrite T in It. apply in_app_or in It. destruct It as [It|[It|It]]; [exfalso; exact (F t It Ot Lt)|congruence|].
    apply in_split in It. destruct It as (a & b & ->). exists t1, a, b. exact T.
  - rewrite E in D. subst x. right.
    assert (Is : In s table) by (rewrite T; apply in_elt).
    pose proof (N s Is O). pose proof (N t It Ot). pose proof (TL s Is) as Ls.
    split; [lia|]. split; [lia|]. rewrite T in It. apply in_app_or in It. destruct It as [It|[It|It]]; [|congruence|exfalso; exact (F t It Ot)].
    apply in_split in It. destruct It as (a & b & ->). exists a, b, t2. rewrite T, <- app_assoc. reflexivity.
  - exfalso. exact (F t It Ot).
Qed.
Lemma species_ok name r s : get_atom_species name r = Ok s -> deduce name "X" ATOM_SPECIES = s.
Proof.
  unfold get_atom_species. cbn zeta. generalize (deduce name "X" ATOM_SPECIES). intros d.
  destruct (String.eqb d "X"); [destruct r; [discriminate|]|]; congruence.
Qed.
Theorem C27_choice : forall name raise_on_fail s t, get_atom_species name raise_on_fail = Ok s ->
  In t ATOM_SPECIES -> occurs t name -> t <> s ->
  (String.length s = 2%nat /\ (String.length t = 1%nat \/ String.length t = 2%nat /\ before s t ATOM_SPECIES)) \/
  (String.length s = 1%nat /\ String.length t = 1%nat /\ before t s ATOM_SPECIES).
Proof.
  intros name r s t H. apply (choice_generic ATOM_SPECIES name s t); [intros x Hx; apply (table_lengths x Hx)|].
  exact (species_ok _ _ _ H).
Qed.
Print Assumptions C27_choice.

(* A chemical symbol decorated with digits, underscores, ... is always recognised. *)
Theorem C27_decorated_symbol : forall p t s r, In t ATOM_SPECIES -> no_letters p = true -> no_letters s = true ->
  get_atom_species (p ++ t ++ s)%string r = Ok t.
Proof.
  intros p t s r Ht Np Ns. unfold get_atom_species. rewrite deduce_decorated by auto.
  destruct (String.eqb_spec t "X"); [subst; exfalso; exact (table_no_X Ht)|reflexivity].
Qed.
Print Assumptions C27_decorated_symbol.
Example C27_case : get_atom_species "_3341Cr" true = Ok "Cr" /\ get_atom_species "CrSBr" true = Ok "Cr" /\ get_atom_species "Sp" true = Ok "S".
Proof. repeat split; vm_compute; reflexivity. Qed.

Theorem C27_case_insensitive : forall n m r, lower n = lower m -> get_atom_species n r = get_atom_species m r.
Proof. intros n m r E. unfold get_atom_species. rewrite (deduce_ext n m E). reflexivity. Qed.
Print Assumptions C27_case_insensitive.

(* The symbol the name starts with need not win. *)
Theorem C27_leading_symbol_refuted : exists t s, In t ATOM_SPECIES /\ get_atom_species (t ++ "_" ++ s)%string true = Ok "Al" /\ t <> "Al".
Proof. exists "O", "apical". split; [rewrite <- mem_true; vm_compute; reflexivity|]. split; [vm_compute; reflexivity|discriminate]. Qed.

(* get_atoms_species works atom by atom *)
Theorem C27_atoms : forall atoms raise_on_fail l, get_atoms_species atoms raise_on_fail = Ok l ->
  exists v, lookup "names" atoms = Some v /\ Forall2 (fun n s => get_atom_species n raise_on_fail = Ok s) (strs v) l.
Proof.
  intros atoms r l. unfold get_atoms_species. destruct (validate_atoms atoms ["names"] true); [|discriminate]. cbn [bind].
  destruct (getitem "names" atoms) as [v|] eqn:E; [|discriminate]. cbn [bind]. intros H. apply getitem_ok in E. exists v. split; auto. apply mapM_ok. exact H.
Qed.
Print Assumptions C27_atoms.

(* ================= C28: unique names ================= *)
Lemma nodup_len (l : list string) : Nat.eqb (length l) (length (nodup string_dec l)) = true <-> NoDup l.
Proof.
  rewrite Nat.eqb_eq. split.
  - intros H. apply NoDup_incl_NoDup with (l := nodup string_dec l); [apply NoDup_nodup|lia|intros x Hx; apply nodup_In in Hx; auto].
  - intros H. rewrite nodup_fixed_point; auto.
Qed.
Lemma number_all_nth l : forall i k, nth_error (number_all l i) k = option_map (fun n => (n ++ dec (i + k + 1))%string) (nth_error l k).
Proof.
  induction l as [|x l IH]; intros i [|k]; cbn [number_all nth_error option_map]; auto.
  - rewrite Nat.add_0_r. reflexivity.
  - rewrite IH. destruct (nth_error l k); cbn; auto. do 2 f_equal. f_equal. lia.
Qed.
(* how often s occurs *)
Definition occ (s : string) (l : list string) : nat := count_occ string_dec l s.
Lemma occ_app s a b : occ s (a ++ b) = (occ s a + occ s b)%nat.
Proof. apply count_occ_app. Qed.

Lemma occ_one s x : occ s [x] = if string_dec x s then 1%nat else 0%nat.
Proof. unfold occ. cbn [count_occ]. destruct (string_dec x s); reflexivity. Qed.
Lemma count_names_spec names : forall x, lookup x (count_names names) = if Nat.eqb (occ x names) 0 then None else Some (1%nat, occ x names).
Proof.
  unfold count_names. rewrite <- (rev_involutive names). generalize (rev names). clear names. intros l. 
  induction l as [|y l IH]; intros x; [reflexivity|]. cbn [rev]. rewrite fold_left_app. cbn [fold_left].
  match goal with |- context [lookup y ?f] => set (c := f) in * end. rewrite occ_app, occ_one.
  rewrite (IH y). destruct (Nat.eqb_spec (occ y (rev l)) 0) as [Z|Z]; rewrite lookup_set; destruct (String.eqb_spec x y) as [->|N].
  - destruct (string_dec y y); [|congruence]. rewrite Z. reflexivity.
  - destruct (string_dec y x); [congruence|]. rewrite IH, Nat.add_0_r. reflexivity.
  - destruct (string_dec y y); [|congruence]. destruct (Nat.eqb_spec (occ y (rev l) + 1) 0); [lia|]. do 2 f_equal. lia.
  - destruct (string_dec y x); [congruence|]. rewrite IH, Nat.add_0_r. reflexivity.
Qed.
(* the state of the counter after the names "done" were processed *)
Lemma number_repeated_spec total todo : forall c done,
  (forall x, In x todo -> lookup x c = Some ((if Nat.ltb 1 (total x) then S (occ x done) else 1)%nat, total x)) ->
  forall k, nth_error (number_repeated todo c) k =
    option_map (fun n => if Nat.ltb 1 (total n) then (n ++ dec (S (occ n (done ++ firstn k todo))))%string else n) (nth_error todo k).
Proof.
  induction todo as [|x todo IH]; intros c done H k; [destruct k; reflexivity|].
  cbn [number_repeated]. rewrite (H x (or_introl eq_refl)). destruct (Nat.ltb 1 (total x)) eqn:E.
  - destruct k as [|k]; cbn [nth_error firstn option_map].
    + rewrite E, app_nil_r. reflexivity.
    + rewrite (IH _ (done ++ [x])).
      * rewrite <- app_assoc. reflexivity.
      * intros y Hy. rewrite lookup_set, occ_app, occ_one. destruct (String.eqb_spec y x) as [->|N].
        -- destruct (string_dec x x); [|congruence]. rewrite E. do 2 f_equal. lia.
        -- destruct (string_dec x y); [congruence|]. rewrite Nat.add_0_r. apply H. right; auto.
  - destruct k as [|k]; cbn [nth_error firstn option_map].
    + rewrite E. reflexivity.
    + rewrite (IH _ (done ++ [x])).
      * rewrite <- app_assoc. reflexivity.
      * intros y Hy. rewrite (H y (or_intror Hy)). destruct (Nat.ltb 1 (total y)) eqn:Ey; [|reflexivity].
        rewrite occ_app, occ_one. destruct (string_dec x y); [subst; congruence|]. rewrite Nat.add_0_r. reflexivity.
Qed.
Lemma repeated_nth names k : nth_error (number_repeated names (count_names names)) k =
  option_map (fun n => if Nat.ltb 1 (occ n names) then (n ++ dec (S (occ n (firstn k names))))%string else n) (nth_error names k).
Proof.
  rewrite (number_repeated_spec (fun x => occ x names) names (count_names names) []); [reflexivity|].
  intros x Hx. rewrite count_names_spec. assert (occ x names > 0)%nat by (apply count_occ_In; auto).
  destruct (Nat.eqb_spec (occ x names) 0); [lia|]. destruct (Nat.ltb 1 (occ x names)); reflexivity.
Qed.
Lemma unique_inv il names st r c : unique_names il names st = Ok (r, c) ->
  (NoDup names /\ r = names /\ c = names) \/
  (~ NoDup names /\ lower st = "all" /\ r = number_all names 0 /\ c = names) \/
  (~ NoDup names /\ il = true /\ lower st = "repeated-only" /\ r = number_repeated names (count_names names) /\ c = r).
Proof.
  unfold unique_names. destruct (mem (lower st) ["all"; "repeated-only"]) eqn:M; [|discriminate]. cbn [negb].
  destruct (Nat.eqb (length names) (length (nodup string_dec names))) eqn:E; cbn [negb andb].
  - apply nodup_len in E. intros H. left. split; auto. split; congruence.
  - assert (N : ~ NoDup names) by (intros N; apply nodup_len in N; congruence).
    apply mem_true in M. destruct M as [M|[M|[]]]; rewrite <- M; cbn [String.eqb Ascii.eqb Bool.eqb andb].
    + intros H. right; left. injection H as <- <-. auto.
    + destruct il; [|discriminate]. intros H. right; right. injection H as <- <-. auto 6.
Qed.

(* which names come out *)
Theorem C28_result : forall il names strategy r caller, unique_names il names strategy = Ok (r, caller) ->
  length r = length names /\
  (NoDup names -> r = names) /\
  (~ NoDup names -> lower strategy = "all" -> forall i n, nth_error names i = Some n -> nth_error r i = Some (n ++ dec (S i))%string) /\
  (~ NoDup names -> lower strategy = "repeated-only" -> forall i n, nth_error names i = Some n ->
     nth_error r i = Some (if Nat.ltb 1 (occ n names) then (n ++ dec (S (occ n (firstn i names))))%string else n)).
Proof.
  intros il names st r c H. destruct (unique_inv _ _ _ _ _ H) as [(N & -> & ->)|[(N & E & -> & ->)|(N & L & E & -> & ->)]].
  - repeat split; auto; intros; contradiction.
  - assert (Len : length (number_all names 0) = length names).
    { clear. generalize 0%nat. induction names; intros; cbn; auto. }
    repeat split; auto; [intros; contradiction| |intros; congruence].
    intros _ _ i n Hn. rewrite number_all_nth, Hn. cbn. do 3 f_equal. lia.
  - assert (Len : forall l c, length (number_repeated l c) = length l).
    { clear. induction l as [|x l IH]; intros c; cbn [number_repeated]; auto. destruct (lookup x c) as [[i t]|]; [destruct (Nat.ltb 1 t)|]; cbn [length]; auto. }
    repeat split; auto; [intros; contradiction|intros; congruence|].
    intros _ _ i n Hn. rewrite repeated_nth, Hn. reflexivity.
Qed.
Print Assumptions C28_result.

Lemma occ_firstn_lt n names i j : (i < j)%nat -> nth_error names i = Some n -> (occ n (firstn i names) < occ n (firstn j names))%nat.
Proof.
  revert i j. induction names as [|x names IH]; intros i j L H; [destruct i; discriminate|].
  destruct j as [|j]; [lia|]. destruct i as [|i]; cbn [nth_error firstn] in *.
  - injection H as ->. unfold occ. cbn [count_occ]. destruct (string_dec n n); [lia|congruence].
  - specialize (IH i j ltac:(lia) H). unfold occ in *. cbn [count_occ]. destruct (string_dec x n); lia.
Qed.

Lemma nodup_by_index {A} (l : list A) : (forall i j x, (i < j)%nat -> nth_error l i = Some x -> nth_error l j = Some x -> False) -> NoDup l.
Proof.
  intros H. apply NoDup_nth_error. intros i j Hi E. destruct (nth_error l i) as [x|] eqn:Q; [|apply nth_error_None in Q; lia].
  destruct (Nat.lt_trichotomy i j) as [L|[L|L]]; auto; exfalso; [exact (H i j x L Q (eq_sym E))|exact (H j i x L (eq_sym E) Q)].
Qed.

(* the claimed uniqueness, for names that do not end with a digit *)
Theorem C28_unique_without_digits : forall il names strategy r caller,
  (forall n, In n names -> ends_with_digit n = false) ->
  unique_names il names strategy = Ok (r, caller) -> NoDup r.
Proof.
  intros il names st r c D H. pose proof (C28_result _ _ _ _ _ H) as (Len & _ & R1 & R2).
  destruct (unique_inv _ _ _ _ _ H) as [(N & -> & _)|[(N & E & Er & _)|(N & _ & E & Er & _)]]; auto.
  - specialize (R1 N E). apply nodup_by_index. intros i j x L Hi Hj.
    assert (Li : (i < length names)%nat) by (rewrite <- Len; apply nth_error_Some; congruence).
    assert (Lj : (j < length names)%nat) by (rewrite <- Len; apply nth_error_Some; congruence).
    destruct (nth_error names i) as [a|] eqn:Qi; [|apply nth_error_None in Qi; lia].
    destruct (nth_error names j) as [b|] eqn:Qj; [|apply nth_error_None in Qj; lia].
    rewrite (R1 _ _ Qi) in Hi. rewrite (R1 _ _ Qj) in Hj.
    assert (X : (a ++ dec (S i) = b ++ dec (S j))%string) by congruence.
    apply digits_suffix_unique in X; auto using dec_all_digits; try (apply D; eapply nth_error_In; eauto).
    destruct X as [_ X]. apply dec_inj in X. lia.
  - specialize (R2 N E). apply nodup_by_index. intros i j x L Hi Hj.
    assert (Li : (i < length names)%nat) by (rewrite <- Len; apply nth_error_Some; congruence).
    assert (Lj : (j < length names)%nat) by (rewrite <- Len; apply nth_error_Some; congruence).
    destruct (nth_error names i) as [a|] eqn:Qi; [|apply nth_error_None in Qi; lia].
    destruct (nth_error names j) as [b|] eqn:Qj; [|apply nth_error_None in Qj; lia].
    rewrite (R2 _ _ Qi) in Hi. rewrite (R2 _ _ Qj) in Hj.
    assert (Da : ends_with_digit a = false) by (apply D; eapply nth_error_In; eauto).
    assert (Db : ends_with_digit b = false) by (apply D; eapply nth_error_In; eauto).
    destruct (Nat.ltb_spec 1 (occ a names)) as [Ga|Ga], (Nat.ltb_spec 1 (occ b names)) as [Gb|Gb].
    + assert (X : (a ++ dec (S (occ a (firstn i names))) = b ++ dec (S (occ b (firstn j names))))%string) by congruence.
      apply digits_suffix_unique in X; auto using dec_all_digits. destruct X as [<- X]. apply dec_inj in X.
      pose proof (occ_firstn_lt a names i j L Qi). lia.
    + assert (X : (a ++ dec (S (occ a (firstn i names))))%string = b) by congruence. rewrite <- X, ends_dec in Db. discriminate.
    + assert (X : (b ++ dec (S (occ b (firstn j names))))%string = a) by congruence. rewrite <- X, ends_dec in Da. discriminate.
    + assert (a = b) by congruence. subst b. 
      pose proof (occ_firstn_lt a names i j L Qi).
      assert (occ a (firstn j names) < occ a (firstn (S j) names))%nat by (apply occ_firstn_lt; auto).
      assert (occ a (firstn (S j) names) <= occ a names)%nat.
      { rewrite <- (firstn_skipn (S j) names) at 2. rewrite occ_app. lia. }
      lia.
Qed.
Print Assumptions C28_unique_without_digits.
Example C28_case : unique_names true ["Br"; "S"; "Br"] "Repeated-only" = Ok (["Br1"; "S"; "Br2"], ["Br1"; "S"; "Br2"]).
Proof. reflexivity. Qed.

(* without that hypothesis the names can collide *)
Theorem C28_unique_all_refuted : exists names r caller, unique_names true names "all" = Ok (r, caller) /\ ~ NoDup r.
Proof.
  exists ["a1"; "b"; "b"; "b"; "b"; "b"; "b"; "b"; "b"; "b"; "a"]. eexists. eexists. split; [reflexivity|].
  intros H. apply nodup_len in H. vm_compute in H. discriminate.
Qed.
Theorem C28_unique_repeated_refuted : exists names r caller, unique_names true names "repeated-only" = Ok (r, caller) /\ ~ NoDup r.
Proof.
  exists ["Br"; "Br"; "Br1"]. eexists. eexists. split; [reflexivity|]. intros H. apply nodup_len in H. vm_compute in H. discriminate.
Qed.

(* the caller's list: kept by "all", overwritten with the result by "repeated-only" *)
Theorem C28_callers_list : forall il names strategy r caller, unique_names il names strategy = Ok (r, caller) ->
  (lower strategy = "all" -> caller = names) /\ (lower strategy = "repeated-only" -> caller = r).
Proof.
  intros il names st r c H. destruct (unique_inv _ _ _ _ _ H) as [(N & -> & ->)|[(N & E & -> & ->)|(N & L & E & -> & ->)]]; split; auto; congruence.
Qed.
Print Assumptions C28_callers_list.
Theorem C28_input_untouched_refuted : exists names r caller, unique_names true names "repeated-only" = Ok (r, caller) /\ caller <> names.
Proof. exists ["Br"; "Br"]. eexists. eexists. split; [reflexivity|]. discriminate. Qed.

(* if the result is unique, a second call does nothing *)
Theorem C28_second_call : forall il names strategy r caller strategy2, unique_names il names strategy = Ok (r, caller) -> NoDup r ->
  lower strategy2 = "all" \/ lower strategy2 = "repeated-only" -> unique_names true r strategy2 = Ok (r, r).
Proof.
  intros il names st r c st2 H N E. unfold unique_names. apply nodup_len in N. rewrite N. cbn [negb andb].
  destruct E as [-> | ->]; reflexivity.
Qed.
Print Assumptions C28_second_call.

Theorem C28_failures : forall il names strategy e, unique_names il names strategy = Err e <->
  (lower strategy <> "all" /\ lower strategy <> "repeated-only" /\ e = ValueError) \/
  (il = false /\ ~ NoDup names /\ lower strategy = "repeated-only" /\ e = TypeError).
Proof.
  intros il names st e. unfold unique_names. destruct (mem (lower st) ["all"; "repeated-only"]) eqn:M; cbn [negb].
  - apply mem_true in M. destruct (Nat.eqb (length names) (length (nodup string_dec names))) eqn:E; cbn [negb andb].
    + apply nodup_len in E. split; [discriminate|]. cbn in M. intros [(A & B & _)|(_ & N & _)]; [|contradiction]. intuition congruence.
    + assert (N : ~ NoDup names) by (intros N; apply nodup_len in N; congruence).
      destruct M as [M|[M|[]]]; rewrite <- M; cbn [String.eqb Ascii.eqb Bool.eqb andb].
      * split; [discriminate|]. intros [(A & _)|(_ & _ & A & _)]; [congruence|discriminate].
      * destruct il.
        -- split; [discriminate|]. intros [(_ & A & _)|(A & _)]; [congruence|discriminate].
        -- split; [intros H; right; repeat split; auto; congruence|]. intros [(_ & A & _)|(_ & _ & _ & ->)]; [congruence|reflexivity].
  - apply mem_false in M. cbn in M. split; [intros H; left; repeat split; intuition congruence|]. intros [(_ & _ & ->)|(_ & _ & A & _)]; [reflexivity|]. exfalso. apply M. auto.
Qed.
Print Assumptions C28_failures.

(* the whole function on a valid atoms dictionary *)
Theorem C28_whole : forall atoms strategy r caller, get_unique_names atoms strategy = Ok (r, caller) ->
  exists v, lookup "names" atoms = Some v /\ valid_atoms atoms ["names"] /\
  unique_names (match v with PList _ => true | _ => false end) (strs v) strategy = Ok (r, caller).
Proof.
  intros atoms st r c. unfold get_unique_names. destruct (validate_atoms atoms ["names"] true) as [b|] eqn:V; [|discriminate]. cbn [bind].
  destruct (getitem "names" atoms) as [v|] eqn:E; [|discriminate]. cbn [bind]. intros H. exists v. apply getitem_ok in E. repeat split; auto;
  apply (C29_accepts_exactly_valid atoms ["names"] true); destruct (validate_modes atoms ["names"]) as [[A _]|[(e & A & _) _]]; congruence.
Qed.
Print Assumptions C28_whole.

(* ================= C30: spglib types ================= *)
Lemma types_of_nth ids ts : types_of ids = Ok ts ->
  length ts = length ids /\ forall i x, nth_error ids i = Some x ->
    exists k, nth_error (sorted_set ids) k = Some x /\ nth_error ts i = Some (Z.of_nat (k + 1)).
Proof.
  intros H. unfold types_of in H. apply mapM_ok in H. split; [symmetry; eapply Forall2_len; eauto|].
  intros i x Hx. destruct (Forall2_nth_l _ _ _ H _ _ Hx) as (t & Ht & G). destruct (sorted_set_spec ids) as [I M].
  assert (Ix : In x (sorted_set ids)) by (apply M; eapply nth_error_In; eauto). apply In_nth_error in Ix. destruct Ix as [k Hk].
  exists k. split; auto. apply getitem_ok in G. rewrite (enum_dict_lookup _ 0 k x (increasing_nodup _ I) Hk) in G. cbn in G. congruence.
Qed.
Lemma types_of_total ids : exists ts, types_of ids = Ok ts.
Proof.
  destruct (types_of ids) as [ts|e] eqn:E; [eauto|]. exfalso. unfold types_of in E.
  assert (G : forall l, incl l ids -> exists ts, mapM (fun x => getitem x (enum_dict (sorted_set ids) 0)) l = Ok ts).
  { induction l as [|x l IH]; intros S1; [eexists; reflexivity|]. destruct IH as [ts T]; [intros y Hy; apply S1; right; auto|].
    destruct (sorted_set_spec ids) as [I M].
    assert (Ix : In x (sorted_set ids)) by (apply M; apply S1; left; auto). apply In_nth_error in Ix. destruct Ix as [k Hk].
    pose proof (enum_dict_lookup _ 0 k x (increasing_nodup _ I) Hk) as L. apply getitem_ok in L. cbn [mapM]. rewrite L. cbn [bind]. rewrite T. cbn. eauto. }
  destruct (G ids (incl_refl _)) as [ts T]. congruence.
Qed.
Lemma increasing_nth l : increasing l -> forall i j x y, nth_error l i = Some x -> nth_error l j = Some y -> ((i < j)%nat <-> str_ltb x y = true).
Proof.
  intros H. assert (F : forall i j x y, (i < j)%nat -> nth_error l i = Some x -> nth_error l j = Some y -> str_ltb x y = true).
  { induction H as [|z l Hz Hl IH]; intros i j x y L Hi Hj; [destruct i; discriminate|].
    destruct j as [|j]; [lia|]. destruct i as [|i]; cbn in Hi, Hj; [injection Hi as ->; apply Hz; eapply nth_error_In; eauto|].
    apply (IH i j); auto. lia. }
  intros i j x y Hi Hj. split; [intros L; eauto|]. intros E. destruct (Nat.lt_trichotomy i j) as [L|[L|L]]; auto; exfalso.
  - subst j. assert (x = y) by congruence. subst. rewrite str_ltb_irrefl in E. discriminate.
  - pose proof (str_ltb_trans _ _ _ E (F _ _ _ _ L Hj Hi)) as Q. rewrite str_ltb_irrefl in Q. discriminate.
Qed.

Theorem C30_types_encode_identifiers : forall ids, exists ts, types_of ids = Ok ts /\ length ts = length ids /\
  (forall i j x y t u, nth_error ids i = Some x -> nth_error ids j = Some y -> nth_error ts i = Some t -> nth_error ts j = Some u ->
     (t = u <-> x = y) /\ ((t < u)%Z <-> str_ltb x y = true)) /\
  exists k : nat, forall t, In t ts <-> (1 <= t <= Z.of_nat k)%Z.
Proof.
  intros ids. destruct (types_of_total ids) as [ts E]. exists ts. split; auto. destruct (types_of_nth _ _ E) as [L N]. split; auto.
  destruct (sorted_set_spec ids) as [I M]. split.
  - intros i j x y t u Hx Hy Ht Hu. destruct (N _ _ Hx) as (k & Kx & Kt). destruct (N _ _ Hy) as (m & My & Mu).
    assert (t = Z.of_nat (k + 1)) by congruence. assert (u = Z.of_nat (m + 1)) by congruence. subst. split.
    + split; intros Q; [assert (k = m) by lia; congruence|]. subst y.
      assert (k = m); [|congruence]. apply (proj1 (NoDup_nth_error _) (increasing_nodup _ I)); [apply nth_error_Some; congruence|congruence].
    + rewrite <- (increasing_nth _ I k m x y Kx My). lia.
  - exists (length (sorted_set ids)). intros t. split.
    + intros Ht. apply In_nth_error in Ht. destruct Ht as [i Ht].
      assert (Li : (i < length ids)%nat) by (rewrite <- L; apply nth_error_Some; congruence).
      destruct (nth_error ids i) as [x|] eqn:Q; [|apply nth_error_None in Q; lia]. destruct (N _ _ Q) as (k & Kx & Kt).
      assert (t = Z.of_nat (k + 1)) by congruence. assert (k < length (sorted_set ids))%nat by (apply nth_error_Some; congruence). lia.
    + intros Ht. destruct (nth_error (sorted_set ids) (Z.to_nat (t - 1))) as [x|] eqn:Q; [|apply nth_error_None in Q; lia].
      assert (Ix : In x ids) by (apply M; eapply nth_error_In; eauto). apply In_nth_error in Ix. destruct Ix as [i Hi].
      destruct (N _ _ Hi) as (k & Kx & Kt).
      assert (k = Z.to_nat (t - 1)) by (apply (proj1 (NoDup_nth_error _) (increasing_nodup _ I)); [apply nth_error_Some; congruence|congruence]).
      assert (t = Z.of_nat (k + 1)) by lia. subst t. eapply nth_error_In; eauto.
Qed.
Print Assumptions C30_types_encode_identifiers.

(* the types depend only on the set of identifiers, not on the order of atoms *)
Theorem C30_order_independent : forall ids ids' ts ts' i j x t t',
  (forall x, In x ids <-> In x ids') -> types_of ids = Ok ts -> types_of ids' = Ok ts' ->
  nth_error ids i = Some x -> nth_error ids' j = Some x -> nth_error ts i = Some t -> nth_error ts' j = Some t' -> t = t'.
Proof.
  intros ids ids' ts ts' i j x t t' S1 E E' Hx Hx' Ht Ht'. destruct (sorted_set_spec ids) as [I M]. destruct (sorted_set_spec ids') as [I' M'].
  assert (Q : sorted_set ids = sorted_set ids') by (apply increasing_unique; auto; intros z; rewrite M, M'; apply S1).
  destruct (types_of_nth _ _ E) as [_ N]. destruct (types_of_nth _ _ E') as [_ N'].
  destruct (N _ _ Hx) as (k & K1 & K2). destruct (N' _ _ Hx') as (m & M1 & M2). rewrite <- Q in M1.
  assert (k = m) by (apply (proj1 (NoDup_nth_error _) (increasing_nodup _ I)); [apply nth_error_Some; congruence|congruence]).
  congruence.
Qed.
Print Assumptions C30_order_independent.

(* Which identifier is used. *)
Theorem C30_rules : forall atoms, validate_atoms atoms [] true = Ok true ->
  (forall v, lookup "spglib_types" atoms = Some v -> get_spglib_types atoms = Ok v) /\
  (lookup "spglib_types" atoms = None -> forall v, lookup "species" atoms = Some v ->
     exists ts, get_spglib_types atoms = Ok (PList (map PInt ts)) /\ types_of (strs v) = Ok ts) /\
  (lookup "spglib_types" atoms = None -> lookup "species" atoms = None -> forall v, lookup "names" atoms = Some v ->
     exists ts, get_spglib_types atoms = Ok (PList (map PInt ts)) /\ types_of (map identifier (strs v)) = Ok ts) /\
  (lookup "spglib_types" atoms = None -> lookup "species" atoms = None -> lookup "names" atoms = None ->
     get_spglib_types atoms = Err ValueError).
Proof.
  intros atoms V. unfold get_spglib_types. rewrite V. cbn [bind]. repeat split.
  - intros v ->. reflexivity.
  - intros -> v ->. destruct (types_of_total (strs v)) as [ts T]. exists ts. cbn [bind]. rewrite T. auto.
  - intros -> -> v ->. destruct (types_of_total (map identifier (strs v))) as [ts T]. exists ts. cbn [bind]. rewrite T. auto.
  - intros -> -> ->. reflexivity.
Qed.
Print Assumptions C30_rules.

(* For the rule "names": same type iff same deduced species, or no species and the same name. *)
Lemma species_deduced t : In t ATOM_SPECIES -> deduce t "X" ATOM_SPECIES <> "X".
Proof.
  intros B A. pose proof (deduce_decorated "" t "" B eq_refl eq_refl) as D. cbn [append] in D. rewrite app_str_nil in D.
  assert (E : t = "X") by congruence. subst t. exact (table_no_X B).
Qed.
Theorem C30_names_rule : forall n m, 
  identifier n = identifier m <->
  (exists s, get_atom_species n true = Ok s /\ get_atom_species m true = Ok s) \/
  (get_atom_species n true = Err FailedToDeduceAtomSpecies /\ get_atom_species m true = Err FailedToDeduceAtomSpecies /\ n = m).
Proof.
  intros n m. unfold identifier, get_atom_species. pose proof (deduce_cases n) as Dn. pose proof (deduce_cases m) as Dm. cbn zeta in *.
  assert (Z : forall n m, deduce n "X" ATOM_SPECIES = "X" -> In (deduce m "X" ATOM_SPECIES) ATOM_SPECIES -> n <> deduce m "X" ATOM_SPECIES).
  { clear. intros n m A B Q. apply (species_deduced (deduce m "X" ATOM_SPECIES) B). rewrite <- Q. exact A. }
  pose proof (Z n m) as Z1. pose proof (Z m n) as Z2. clear Z. revert Dn Dm Z1 Z2.
  generalize (deduce n "X" ATOM_SPECIES) as dn. generalize (deduce m "X" ATOM_SPECIES) as dm. generalize ATOM_SPECIES as table. intros table dm dn Dn Dm Z1 Z2.
  destruct (String.eqb_spec dn "X") as [En|En], (String.eqb_spec dm "X") as [Em|Em].
  - split; [intros ->; right; auto|]. intros [(s & A & _)|(_ & _ & ->)]; [discriminate|auto].
  - destruct Dm as [(Dm & _)|[Dm _]]; [|contradiction]. split; [intros Q; exfalso; exact (Z1 En Dm Q)|]. intros [(s & A & _)|(_ & A & _)]; discriminate.
  - destruct Dn as [(Dn & _)|[Dn _]]; [|contradiction]. split; [intros Q; exfalso; exact (Z2 Em Dn (eq_sym Q))|]. intros [(s & _ & A)|(A & _)]; discriminate.
  - split; [intros Q; left; exists dn; split; congruence|]. intros [(s & A & B)|(A & _)]; [congruence|discriminate].
Qed.
Print Assumptions C30_names_rule.
Example C30_case : get_spglib_types [("names", PList [PStr "q"; PStr "Cr1"; PStr "Br"; PStr "cr_2"; PStr "q"])] =
  Ok (PList [PInt 3; PInt 2; PInt 1; PInt 2; PInt 3]).
Proof. vm_compute. reflexivity. Qed.

(* the computed list is itself a valid "spglib_types" entry *)
Theorem C30_result_is_valid : forall ids ts, types_of ids = Ok ts -> forall x, In x (map PInt ts) -> is_int_ge1 x.
Proof.
  intros ids ts H x Hx. apply in_map_iff in Hx. destruct Hx as (t & <- & Ht). left. exists t. split; auto.
  destruct (C30_types_encode_identifiers ids) as (ts' & E & _ & _ & k & K). assert (ts' = ts) by congruence. subst. apply K in Ht. lia.
Qed.
Print Assumptions C30_result_is_valid.
