(* P_Poscar.v : C46-C48, POSCAR files *)
From Verif Require Import Base M_Strings M_Dict M_Geometry M_Atoms M_Spglib M_Primitive M_Poscar T_Atoms F_Strings F_Voronoi F_Atoms F_Primitive F_Conventional F_Poscar.
From Coq Require Import Sorting.Sorted.
Open Scope string_scope.
Open Scope list_scope.
Open Scope R_scope.

(* ================= specification ================= *)
(* y is x written with d decimals: a multiple of 10^-d no further than half a unit of the last digit *)
Definition written (d : nat) (x y : R) : Prop := (exists z, y = IZR z / 10 ^ d) /\ Rabs (y - x) <= / 2 * / 10 ^ d.
Definition written_vec (d : nat) (u v : vec) : Prop := written d (vx u) (vx v) /\ written d (vy u) (vy v) /\ written d (vz u) (vz v).
Definition written_mat (d : nat) (m n : mat) : Prop := written_vec d (row1 m) (row1 n) /\ written_vec d (row2 m) (row2 n) /\ written_vec d (row3 m) (row3 n).
Definition letter (c : ascii) : Prop := (65 <= nat_of_ascii c <= 90 \/ 97 <= nat_of_ascii c <= 122)%nat.
(* one word that starts with a letter *)
Definition species_word (s : string) : Prop :=
  (exists c s', s = String c s' /\ letter c) /\ (forall c, In c (list_ascii_of_string s) -> is_space c = false).
(* the species and the positions of the atoms that the dictionary describes: species are given or deduced from names *)
Definition describes (atoms : atoms_dict) (l : list (string * vec)) : Prop :=
  (exists rows, lookup "positions" atoms = Some (PList rows) /\ Forall2 (fun row x => to_row row = Ok (snd x)) rows l) /\
  (lookup "species" atoms = Some (PList (map (fun x => PStr (fst x)) l)) \/
   lookup "species" atoms = None /\
   exists names, lookup "names" atoms = Some (PList (map PStr names)) /\
     Forall2 (fun name x => get_atom_species name true = Ok (fst x)) names l).
Definition of_species (s : string) (l : list (string * vec)) : list vec := map snd (filter (fun x => String.eqb (fst x) s) l).
Definition alphabetical (l : list (string * vec)) : Prop := StronglySorted (fun x y => str_ltb (fst y) (fst x) = false) l.
Definition comment_text (now : string) (comment : option string) : string := match comment with None => now | Some c => replace_newlines c end.

(* ================= exact description of the round trip ================= *)
Definition mfixed (d : nat) (m : mat) : mat := M3 (vfixed d (row1 m)) (vfixed d (row2 m)) (vfixed d (row3 m)).
Definition forward (mode : string) (cell : mat) (p : vec) : vec := if String.eqb mode "Direct" then p else vmat p cell.
Definition entries (mode : string) (cell : mat) (l : list (string * vec)) := map (fun x => (fst x, forward mode cell (snd x))) l.
Definition poscar_lines (d : nat) (cell : mat) (mode comment : string) (s : list (string * vec)) : list string :=
  [String.append comment (String LF ""); String.append "1.0" (String LF "");
   vector_row d (row1 cell); vector_row d (row2 cell); vector_row d (row3 cell);
   row (keys (count_species s)); row (map (fun kv => dec (snd kv)) (count_species s));
   String.append mode (String LF "")] ++ map (fun x => vector_row d (snd x)) s.

Lemma F2_length {A B} (P : A -> B -> Prop) l m : Forall2 P l m -> length l = length m.
Proof. induction 1; cbn [List.length]; auto. Qed.
Lemma species_found n s : get_atom_species n true = Ok s -> get_atom_species n false = Ok s /\ String.eqb s "X" = false.
Proof.
  unfold get_atom_species. generalize (deduce n "X" ATOM_SPECIES). intros t. cbv zeta. destruct (String.eqb t "X") eqn:E; [discriminate|].
  intros H. inversion H; subst. auto.
Qed.
Lemma describes_entries atoms l cell mode : describes atoms l -> exists v, lookup "positions" atoms = Some v /\ py_len v = Ok (length l) /\
  mapM (atom_entry cell atoms mode) (seq 0 (length l)) = Ok (entries mode cell l).
Proof.
  intros ((rows & P & F) & S). exists (PList rows). split; auto. split; [cbn [py_len]; f_equal; eapply F2_length; eauto|].
  apply mapM_of. unfold entries.
  assert (X : forall i x, nth_error l i = Some x -> atom_entry cell atoms mode i = Ok (fst x, forward mode cell (snd x))).
  { intros i x E. unfold atom_entry. 
    assert (RX : exists r, nth_error rows i = Some r /\ to_row r = Ok (snd x)).
    { clear - F E. revert i E. induction F; intros [|i] E; cbn in *; try discriminate; [inversion E; subst; eauto|eauto]. }
    destruct RX as (r & R1 & R2).
    assert (T : (match lookup "species" atoms with
      | Some v => do x0 <- subscript v i; expect_str x0
      | None => do v <- getitem "names" atoms; do x0 <- subscript v i; do name <- expect_str x0; do t <- get_atom_species name false;
         (if String.eqb t "X" then do v0 <- getitem "name" atoms; do _ <- subscript v0 i; Err ValueError else Ok t) end) = Ok (fst x)).
    { destruct S as [S|(S & names & N & FN)]; rewrite S.
      - cbn [subscript elements]. rewrite nth_error_map, E. reflexivity.
      - rewrite (proj2 (getitem_ok _ _ _) N). cbn [bind subscript elements]. rewrite nth_error_map.
        assert (NX : exists nm, nth_error names i = Some nm /\ get_atom_species nm true = Ok (fst x)).
        { clear - FN E. revert i E. induction FN; intros [|i] E; cbn in *; try discriminate; [inversion E; subst; eauto|eauto]. }
        destruct NX as (nm & N1 & N2). rewrite N1. cbn [option_map bind expect_str]. destruct (species_found _ _ N2) as [N3 N4].
        rewrite N3. cbn [bind]. rewrite N4. reflexivity. }
    rewrite T. cbn [bind]. rewrite (proj2 (getitem_ok _ _ _) P). cbn [bind subscript elements]. rewrite R1. cbn [bind]. rewrite R2. reflexivity. }
  clear - X. revert X. generalize (atom_entry cell atoms mode). intros f. 
  enough (G : forall k, (forall i x, nth_error l i = Some x -> f (k + i)%nat = Ok (fst x, forward mode cell (snd x))) ->
     Forall2 (fun a b => f a = Ok b) (seq k (length l)) (map (fun x => (fst x, forward mode cell (snd x))) l)) by (intros H; apply (G O); exact H).
  induction l as [|y l IH]; intros k H; cbn [List.length seq map]; constructor.
  - specialize (H O y eq_refl). rewrite Nat.add_0_r in H. exact H.
  - apply IH. intros i x E. specialize (H (S i) x E). rewrite <- Nat.add_succ_comm in H. exact H.
Qed.
Lemma dump_text now cell atoms l comment d mode : describes atoms l -> In mode ["Direct"; "Cartesian"] ->
  dump_poscar now cell atoms comment (Z.of_nat d) mode = Ok (concat_str (poscar_lines d cell mode (comment_text now comment) (sort_entries (entries mode cell l)))).
Proof.
  intros D M. destruct (describes_entries atoms l cell mode D) as (v & L & N & E). unfold dump_poscar. cbv zeta.
  rewrite (proj2 (mem_true _ _) M). cbn [negb]. rewrite (proj2 (getitem_ok _ _ _) L). cbn [bind]. rewrite N. cbn [bind]. rewrite E. cbn [bind].
  replace (Z.of_nat d <? 0)%Z with false by (symmetry; apply Z.ltb_ge; lia). rewrite Nat2Z.id. reflexivity.
Qed.
Lemma species_no_space s : species_word s -> no_space s /\ s <> "".
Proof.
  intros ((c & s' & -> & _) & H). split; [|discriminate]. revert H. generalize (String c s'). clear. intros s. induction s as [|c s IH]; cbn; auto.
Qed.
Lemma species_not_int s : species_word s -> parses s = false.
Proof.
  intros ((c & s' & -> & L) & _). unfold parses, parse_int. cbn [drop_underscores].
  destruct (Ascii.eqb_spec c "_"%char) as [->|NU]; [cbv in L; lia|].
  destruct (drop_underscores _ s') as [r|]; [|reflexivity]. cbn [take_sign].
  destruct (Ascii.eqb_spec c "-"%char) as [->|]; [cbv in L; lia|]. destruct (Ascii.eqb_spec c "+"%char) as [->|]; [cbv in L; lia|].
  cbn [take_digits]. unfold digit_value. replace (Nat.leb (nat_of_ascii c) 57) with false by (symmetry; apply Nat.leb_gt; destruct L; lia).
  rewrite andb_false_r. reflexivity.
Qed.
Definition entry_good (s : list (string * vec)) := Forall (fun x => species_word (fst x)) s.
Lemma keys_good s : StronglySorted entry_le s -> entry_good s -> Forall species_word (keys (count_species s)).
Proof.
  intros S G. destruct (count_sorted s S) as (_ & _ & I). apply Forall_forall. intros k K. apply I in K. apply in_map_iff in K.
  destruct K as (x & <- & X). unfold entry_good in G. rewrite Forall_forall in G. auto.
Qed.
Lemma dec_word n : good_word (dec n).
Proof. split; [apply digits_no_space, dec_digits|apply dec_nonempty]. Qed.
Lemma lines_ok d cell mode comment s : StronglySorted entry_le s -> entry_good s -> free LF comment -> In mode ["Direct"; "Cartesian"] ->
  Forall is_line (poscar_lines d cell mode comment s).
Proof.
  intros S G C M. unfold poscar_lines. repeat apply Forall_cons; try apply vector_row_line.
  - eexists; split; [exact C|reflexivity].
  - exists "1.0". split; [cbn; repeat split; discriminate|reflexivity].
  - apply row_line. eapply Forall_impl; [|apply keys_good; eauto]. intros k K. apply species_no_space in K. apply no_space_free; [reflexivity|tauto].
  - apply row_line. apply Forall_map. apply Forall_forall. intros x _. apply digits_free; [cbv; lia|apply dec_digits].
  - exists mode. split; [|reflexivity]. destruct M as [<-|[<-|[]]]; cbn; repeat split; discriminate.
  - apply Forall_map. apply Forall_forall. intros x _. apply vector_row_line.
Qed.
Lemma enumerate_nth {A} (l : list A) k : nth_error (enumerate l) k = option_map (fun x => (k, x)) (nth_error l k).
Proof.
  unfold enumerate. enough (G : forall b, nth_error (combine (seq b (length l)) l) k = option_map (fun x => ((b + k)%nat, x)) (nth_error l k)) by apply (G O).
  revert k. induction l as [|x l IH]; intros [|k] b; cbn [List.length seq combine nth_error option_map]; auto.
  - rewrite Nat.add_0_r. reflexivity.
  - rewrite IH, <- Nat.add_succ_comm. reflexivity.
Qed.
Lemma Forall2_by_nth {A B} (P : A -> B -> Prop) l m : length l = length m ->
  (forall k a b, nth_error l k = Some a -> nth_error m k = Some b -> P a b) -> Forall2 P l m.
Proof.
  revert m. induction l as [|a l IH]; intros [|b m] L H; cbn in L; try discriminate; constructor.
  - apply (H O); reflexivity.
  - apply IH; [lia|]. intros k. apply (H (S k)).
Qed.
Definition backward (mode : string) (cell : mat) (p : vec) : vec := if String.eqb mode "Direct" then p else vmat p (minv_total cell).
Lemma parse_one : mapM parse_float (words (String.append "1.0" (String LF ""))) = Ok [1].
Proof.
  change (words (String.append "1.0" (String LF ""))) with ["1.0"]. cbn [mapM].
  assert (E : parse_float "1.0" = Ok (10 / 10)) by reflexivity. rewrite E. cbn [bind]. replace (10 / 10) with 1 by field. reflexivity.
Qed.
Lemma load_lines d cell mode comment s : StronglySorted entry_le s -> entry_good s -> In mode ["Direct"; "Cartesian"] ->
  (mode = "Direct" \/ det (mfixed d cell) <> 0 \/ s = []) ->
  load_poscar (poscar_lines d cell mode comment s) =
  Ok (mfixed d cell, map (fun x => (fst x, backward mode (mfixed d cell) (vfixed d (snd x)))) s, strip (String.append comment (String LF ""))).
Proof.
  intros S G M C. unfold load_poscar. set (L := poscar_lines d cell mode comment s).
  assert (L0 : line L 0 = Ok (String.append comment (String LF ""))) by reflexivity.
  assert (L1 : line L 1 = Ok (String.append "1.0" (String LF ""))) by reflexivity.
  assert (L5 : line L 5 = Ok (row (keys (count_species s)))) by reflexivity.
  assert (L6 : line L 6 = Ok (row (map (fun kv => dec (snd kv)) (count_species s)))) by reflexivity.
  assert (L7 : line L 7 = Ok (String.append mode (String LF ""))) by reflexivity.
  assert (L8 : forall k, line L (8 + k) = match nth_error s k with Some x => Ok (vector_row d (snd x)) | None => Err IndexError end).
  { intros k. unfold line, L, poscar_lines. rewrite nth_error_app2 by (cbn; lia).
    match goal with |- context [nth_error (map _ s) ?j] => replace j with k by (cbn; lia) end. rewrite nth_error_map. destruct (nth_error s k); reflexivity. }
  assert (LR : firstn 3 (skipn 2 L) = [vector_row d (row1 cell); vector_row d (row2 cell); vector_row d (row3 cell)]) by reflexivity.
  rewrite L0. cbn [bind]. rewrite L1. cbn [bind]. unfold parse_floats. rewrite parse_one. cbn [bind]. rewrite LR. cbn [mapM]. rewrite !parse_vector_row. cbn [bind three].
  unfold apply_scale. replace (Rltb 1 0) with false by (symmetry; apply Rltb_false; lra). cbn [bind].
  change (M3 (V3 (fixed d (vx (row1 cell))) (fixed d (vy (row1 cell))) (fixed d (vz (row1 cell)))) (V3 (fixed d (vx (row2 cell))) (fixed d (vy (row2 cell))) (fixed d (vz (row2 cell))))
    (V3 (fixed d (vx (row3 cell))) (fixed d (vy (row3 cell))) (fixed d (vz (row3 cell))))) with (mfixed d cell).
  replace (mscale 1 (mfixed d cell)) with (mfixed d cell) by (generalize (mfixed d cell); clear; intros [[] [] []]; vunfold; f_equal; f_equal; ring).
  rewrite L5. cbn [bind].
  pose proof (keys_good s S G) as KG.
  rewrite words_plain by (eapply Forall_impl; [|exact KG]; intros k K; apply species_no_space; auto).
  destruct (count_sorted s S) as (EX & ND & _).
  assert (CW : words (row (map (fun kv : string * nat => dec (snd kv)) (count_species s))) = map (fun kv => dec (snd kv)) (count_species s)).
  { apply words_plain. apply Forall_map. apply Forall_forall. intros x _. apply dec_word. }
  assert (CI : mapM parse_int (map (fun kv : string * nat => dec (snd kv)) (count_species s)) = Ok (map (fun kv => Z.of_nat (snd kv)) (count_species s))).
  { generalize (count_species s). clear. intros l. induction l as [|x l IH]; cbn [map mapM]; auto. rewrite parse_dec, IH. reflexivity. }
  destruct (count_species s) as [|e rest] eqn:CS.
  { assert (s = []) as -> by (destruct s; [auto|discriminate]). cbn [keys map existsb]. cbn [bind mapM]. rewrite L6. reflexivity. }
  rewrite <- CS in *.
  assert (SN : s <> []) by (intros ->; discriminate CS).
  assert (GOT : existsb (fun x => negb (parses x)) (keys (count_species s)) = true).
  { rewrite CS in KG |- *. cbn [keys map existsb] in *. inversion KG as [|? ? K1 K2]; subst. rewrite (species_not_int _ K1). reflexivity. }
  rewrite GOT, L6. cbn [bind]. rewrite CW, CI. cbn [bind]. rewrite L7. cbn [bind].
  assert (FC : exists c, first_char (String.append mode (String LF "")) = Ok c /\ Ascii.eqb (lower_ascii c) "s"%char = false /\
     (Ascii.eqb (lower_ascii c) "c"%char || Ascii.eqb (lower_ascii c) "k"%char)%bool = negb (String.eqb mode "Direct")).
  { destruct M as [<-|[<-|[]]]; eexists; (split; [reflexivity|split; reflexivity]). }
  destruct FC as (c & FC1 & FC2 & FC3). rewrite FC1. cbn [bind]. rewrite FC2. cbv zeta. rewrite L7. cbn [bind]. rewrite FC1. cbn [bind]. rewrite FC3.
  pose proof (species_indices_expand (count_species s) []) as SI. cbn [app List.length] in SI. rewrite EX in SI.
  match goal with |- context [species_indices ?a ?b] => set (idx := species_indices a b) in * end.
  assert (LEN : length idx = length s) by (apply (f_equal (@List.length _)) in SI; rewrite !map_length in SI; exact SI).
  erewrite mapM_of; [reflexivity|]. apply Forall2_by_nth.
  { unfold enumerate. rewrite combine_length, seq_length, map_length. lia. }
  intros k ki x K X. rewrite enumerate_nth in K. rewrite nth_error_map in X.
  destruct (nth_error idx k) as [i|] eqn:KI; [|discriminate]. cbn [option_map] in K. inversion K; subst ki. cbn [fst snd].
  destruct (nth_error s k) as [y|] eqn:KY; [|discriminate]. cbn [option_map] in X. inversion X; subst x.
  assert (NK : nth_error (keys (count_species s)) i = Some (fst y)).
  { apply (f_equal (fun l => nth_error l k)) in SI. rewrite !nth_error_map, KI, KY in SI. cbn [option_map] in SI. congruence. }
  unfold read_atom. rewrite L8, KY. cbn [bind]. rewrite firstn_all2 by (rewrite vector_row_words; lia). rewrite parse_vector_row. cbn [bind three].
  rewrite NK. unfold backward. destruct (String.eqb mode "Direct") eqn:MD; cbn [negb].
  - reflexivity.
  - assert (DN : det (mfixed d cell) <> 0) by (destruct C as [->|[C|C]]; [discriminate|exact C|congruence]).
    rewrite (proj2 (minv_ok _ _) (conj DN eq_refl)). cbn [bind]. do 2 f_equal. f_equal. unfold vmul, vfixed, vmap. cbn [vx vy vz]. rewrite !Rmult_1_r. reflexivity.
Qed.

(* ================= C46 ================= *)
Lemma pow10_pow d : pow10 d = 10 ^ d.
Proof. unfold pow10. rewrite <- pow_IZR. reflexivity. Qed.
Lemma fixed_written d x : written d x (fixed d x).
Proof. unfold written. rewrite <- pow10_pow. split; [eexists; reflexivity|apply fixed_near]. Qed.
Lemma vfixed_written d v : written_vec d v (vfixed d v).
Proof. repeat split; try (eexists; unfold vfixed, vmap; cbn [vx vy vz]; rewrite <- pow10_pow; reflexivity); apply fixed_written. Qed.
Lemma entries_sorted_good mode cell l : Forall (fun x => species_word (fst x)) l -> entry_good (sort_entries (entries mode cell l)).
Proof.
  intros H. apply Forall_forall. intros x X. apply (proj1 (sort_in _ _)) in X. unfold entries in X. apply in_map_iff in X. destruct X as (y & <- & Y).
  cbn [fst]. rewrite Forall_forall in H. auto.
Qed.
Lemma of_species_sorted s mode cell l (f : vec -> vec) :
  of_species s (map (fun x => (fst x, f (snd x))) (sort_entries (entries mode cell l))) = map (fun p => f (forward mode cell p)) (of_species s l).
Proof.
  unfold of_species.
  assert (MF : forall (g : vec -> vec) m, filter (fun x => String.eqb (fst x) s) (map (fun x : string * vec => (fst x, g (snd x))) m) =
     map (fun x => (fst x, g (snd x))) (filter (fun x => String.eqb (fst x) s) m)).
  { intros g m. induction m as [|x m IH]; cbn [map filter fst]; auto. rewrite IH. destruct (String.eqb (fst x) s); reflexivity. }
  rewrite MF, sort_filter. unfold entries. rewrite MF. rewrite !map_map. reflexivity.
Qed.
Lemma map_fst_sorted (f : string * vec -> vec) l : StronglySorted entry_le l -> alphabetical (map (fun x => (fst x, f x)) l).
Proof.
  induction 1 as [|x l H IH F]; cbn [map]; constructor; auto. apply Forall_map. exact F.
Qed.
Lemma strip_newline s : strip (String.append s (String LF "")) = strip s.
Proof.
  unfold strip.
  assert (R : forall s, rstrip (String.append s (String LF "")) = rstrip s).
  { induction s0 as [|c s0 IH]; cbn [String.append rstrip]; [reflexivity|]. rewrite IH. reflexivity. }
  induction s as [|c s IH]; cbn [String.append lstrip]; [reflexivity|]. destruct (is_space c) eqn:E; auto. exact (R (String c s)).
Qed.
(* Everything about one pass through a file.  For Cartesian coordinates the written cell must not be singular. *)
Theorem C46_round_trip : forall now cell atoms l comment d mode,
  describes atoms l -> Forall (fun x => species_word (fst x)) l -> free LF now -> In mode ["Direct"; "Cartesian"] ->
  exists text cell',
    dump_poscar now cell atoms comment (Z.of_nat d) mode = Ok text /\ written_mat d cell cell' /\
    (mode = "Direct" \/ det cell' <> 0 ->
     exists loaded, load_poscar (readlines text) = Ok (cell', loaded, strip (comment_text now comment)) /\
       length loaded = length l /\ alphabetical loaded /\
       forall s, Forall2 (fun p q => if String.eqb mode "Direct" then written_vec d p q else written_vec d (vmat p cell) (vmat q cell'))
                         (of_species s l) (of_species s loaded)).
Proof.
  intros now cell atoms l comment d mode D G NF M. rewrite (dump_text now cell atoms l comment d mode D M).
  do 2 eexists. split; [reflexivity|]. instantiate (1 := mfixed d cell). split; [repeat split; try (eexists; unfold mfixed, vfixed, vmap; cbn [row1 row2 row3 vx vy vz]; rewrite <- pow10_pow; reflexivity); apply fixed_written|].
  intros C. set (s := sort_entries (entries mode cell l)).
  assert (S : StronglySorted entry_le s) by apply sort_sorted.
  assert (EG : entry_good s) by (apply entries_sorted_good; auto).
  assert (CF : free LF (comment_text now comment)) by (destruct comment; [apply replace_free|exact NF]).
  rewrite readlines_concat by (apply lines_ok; auto).
  rewrite load_lines by (auto; destruct C; auto). rewrite strip_newline. eexists. split; [reflexivity|].
  split; [rewrite map_length; unfold s; rewrite sort_length; unfold entries; apply map_length|].
  split; [apply map_fst_sorted; exact S|].
  intros sp. unfold s. rewrite (of_species_sorted sp mode cell l (fun p => backward mode (mfixed d cell) (vfixed d p))). generalize (of_species sp l). intros ps.
  induction ps as [|p ps IH]; cbn [map]; constructor; auto.
  unfold forward, backward. destruct (String.eqb mode "Direct") eqn:MD.
  - apply vfixed_written.
  - assert (DN : det (mfixed d cell) <> 0) by (destruct C as [->|C]; [discriminate|exact C]).
    rewrite vmat_mmul, minv_l, vmat_id by auto. apply vfixed_written.
Qed.
Print Assumptions C46_round_trip.
(* Reading the text back from a file translates line ends; this changes nothing if the comment has no carriage return. *)
Lemma free_row_CR l : Forall (fun w => no_space w) l -> free CR (row l).
Proof.
  intros H. unfold row. apply free_app. split; [|cbn; split; [discriminate|exact I]]. apply free_concat. apply Forall_map.
  eapply Forall_impl; [|exact H]. intros w W. apply free_app. split; [apply no_space_free; auto|]. cbn. split; [discriminate|exact I].
Qed.
Theorem C46_through_a_file : forall now cell atoms l comment d mode text,
  describes atoms l -> Forall (fun x => species_word (fst x)) l -> free CR now -> (forall c, comment = Some c -> free CR c) -> In mode ["Direct"; "Cartesian"] ->
  dump_poscar now cell atoms comment (Z.of_nat d) mode = Ok text -> readlines (universal_newlines text) = readlines text.
Proof.
  intros now cell atoms l comment d mode text D G NF CF M H. rewrite (dump_text now cell atoms l comment d mode D M) in H. match type of H with Ok ?t = _ => assert (TX : text = t) by congruence end. subst text. clear H.
  rewrite universal_free; auto. set (s := sort_entries (entries mode cell l)).
  assert (S : StronglySorted entry_le s) by apply sort_sorted.
  assert (EG : entry_good s) by (apply entries_sorted_good; auto).
  apply free_concat. unfold poscar_lines. repeat apply Forall_cons; try (apply vector_row_free; [reflexivity|discriminate|discriminate]).
  - apply free_app. split; [|cbn; split; [discriminate|exact I]]. destruct comment as [c|]; [|exact NF]. specialize (CF c eq_refl). cbn [comment_text].
    unfold replace_newlines. clear - CF. induction c as [|x c IH]; cbn [smap free] in *; auto. destruct CF as [A B]. split; auto. destruct (Ascii.eqb x LF); [discriminate|auto].
  - cbn. repeat split; discriminate.
  - apply free_row_CR. eapply Forall_impl; [|apply keys_good; eauto]. intros k K. apply species_no_space in K. tauto.
  - apply free_row_CR. apply Forall_map. apply Forall_forall. intros x _. apply dec_word.
  - destruct M as [<-|[<-|[]]]; cbn; repeat split; discriminate.
  - apply Forall_map. apply Forall_forall. intros x _. apply vector_row_free; [reflexivity|discriminate|discriminate].
Qed.
Print Assumptions C46_through_a_file.
(* Numbers that need no rounding are recovered exactly. *)
Definition on_grid (d : nat) (x : R) : Prop := exists z, x = IZR z / 10 ^ d.
Theorem C46_exact : forall d x y, on_grid d x -> written d x y -> y = x.
Proof.
  intros d x y (z & ->) ((w & ->) & B). assert (P : 0 < 10 ^ d) by (apply pow_lt; lra).
  replace (IZR w / 10 ^ d - IZR z / 10 ^ d) with (IZR (w - z) * / 10 ^ d) in B by (rewrite minus_IZR; field; lra).
  rewrite Rabs_mult, (Rabs_right (/ 10 ^ d)) in B by (apply Rle_ge, Rlt_le, Rinv_0_lt_compat; auto).
  apply Rmult_le_reg_r in B; [|apply Rinv_0_lt_compat; auto]. rewrite <- abs_IZR in B.
  assert (IZR (Z.abs (w - z)) < 1) by lra. apply lt_IZR in H. assert (w = z) by lia. subst. reflexivity.
Qed.
Print Assumptions C46_exact.
(* The loaded structure, given back to dump_poscar with the same options, gives a file with the same content. *)
Definition loaded_atoms (l : list (string * vec)) : atoms_dict :=
  [("names", PList (map (fun x => PStr (fst x)) l)); ("positions", pos_val (map snd l))].
Lemma sort_of_sorted l : StronglySorted entry_le l -> sort_entries l = l.
Proof.
  induction 1 as [|x l H IH F]; auto. cbn [sort_entries fold_right]. change (fold_right insert_entry [] l) with (sort_entries l). rewrite IH.
  destruct l as [|y l]; auto. cbn [insert_entry]. inversion F as [|? ? E _]; subst. unfold entry_le, str_le in E. rewrite E. reflexivity.
Qed.
Lemma species_self : forallb (fun s => match get_atom_species s true with Ok t => String.eqb t s | Err _ => false end) ATOM_SPECIES = true.
Proof. vm_compute. reflexivity. Qed.
Lemma species_letters : forallb (fun s => match s with String c _ => (Nat.leb 65 (nat_of_ascii c) && Nat.leb (nat_of_ascii c) 90)%bool | _ => false end && forallb (fun c => negb (is_space c)) (list_ascii_of_string s))%bool ATOM_SPECIES = true.
Proof. vm_compute. reflexivity. Qed.
Lemma known_word s : In s ATOM_SPECIES -> species_word s /\ get_atom_species s true = Ok s.
Proof.
  intros H. pose proof species_self as A. pose proof species_letters as B. rewrite forallb_forall in A, B. specialize (A s H). specialize (B s H). split.
  - apply andb_prop in B. destruct B as [B1 B2]. destruct s as [|c s]; [discriminate|]. split.
    + exists c, s. split; auto. apply andb_prop in B1. rewrite !Nat.leb_le in B1. left. exact B1.
    + rewrite forallb_forall in B2. intros x X. specialize (B2 x X). apply negb_true_iff in B2. exact B2.
  - clear B. destruct (get_atom_species s true) as [t|]; [|discriminate]. apply String.eqb_eq in A. congruence.
Qed.
Lemma loaded_describes l : Forall (fun x => In (fst x) ATOM_SPECIES) l -> describes (loaded_atoms l) l.
Proof.
  intros H. split.
  - eexists. split; [reflexivity|]. clear. induction l as [|[n p] l IH]; cbn [map]; constructor; auto. destruct p; reflexivity.
  - right. split; [reflexivity|]. exists (map fst l). split; [cbn; rewrite map_map; reflexivity|].
    induction H as [|x l X H IH]; cbn [map]; constructor; auto. apply known_word. exact X.
Qed.
Theorem C46_second_round_trip : forall now cell atoms l comment d mode text cell' loaded c now',
  describes atoms l -> Forall (fun x => In (fst x) ATOM_SPECIES) l -> free LF now -> free LF now' -> In mode ["Direct"; "Cartesian"] ->
  dump_poscar now cell atoms comment (Z.of_nat d) mode = Ok text -> load_poscar (readlines text) = Ok (cell', loaded, c) ->
  mode = "Direct" \/ det cell' <> 0 ->
  exists text', dump_poscar now' cell' (loaded_atoms loaded) (Some c) (Z.of_nat d) mode = Ok text' /\ exists c', load_poscar (readlines text') = Ok (cell', loaded, c').
Proof.
  intros now cell atoms l comment d mode text cell' loaded c now' D G NF NF' M H L C.
  rewrite (dump_text now cell atoms l comment d mode D M) in H. match type of H with Ok ?t = _ => assert (TX : text = t) by congruence end. subst text. clear H.
  set (s := sort_entries (entries mode cell l)) in *.
  assert (S : StronglySorted entry_le s) by apply sort_sorted.
  assert (GW : Forall (fun x => species_word (fst x)) l) by (eapply Forall_impl; [|exact G]; intros x X; apply known_word; auto).
  assert (EG : entry_good s) by (apply entries_sorted_good; auto).
  assert (CF : free LF (comment_text now comment)) by (destruct comment; [apply replace_free|exact NF]).
  rewrite readlines_concat in L by (apply lines_ok; auto).
  assert (CM : cell' = mfixed d cell).
  { revert L. unfold load_poscar. change (line (poscar_lines d cell mode (comment_text now comment) s) 0) with (Ok (String.append (comment_text now comment) (String LF ""))). cbn [bind].
    change (line (poscar_lines d cell mode (comment_text now comment) s) 1) with (Ok (String.append "1.0" (String LF ""))). cbn [bind]. unfold parse_floats. rewrite parse_one. cbn [bind].
    change (firstn 3 (skipn 2 (poscar_lines d cell mode (comment_text now comment) s))) with [vector_row d (row1 cell); vector_row d (row2 cell); vector_row d (row3 cell)].
    cbn [mapM]. rewrite !parse_vector_row. cbn [bind three]. unfold apply_scale. replace (Rltb 1 0) with false by (symmetry; apply Rltb_false; lra). cbn [bind].
    intros L. repeat match type of L with
      | bind ?x _ = Ok _ => destruct x; [cbn [bind] in L|discriminate L]
      | (let '(_, _) := ?x in _) = Ok _ => destruct x
      | (if ?b then _ else _) = Ok _ => destruct b
      end.
    inversion L. unfold mfixed, vfixed, vmap. vunfold. f_equal; f_equal; ring. }
  subst cell'. rewrite load_lines in L by (auto; tauto). inversion L; subst loaded c. clear L.
  set (loaded := map (fun x => (fst x, backward mode (mfixed d cell) (vfixed d (snd x)))) s) in *.
  assert (KL : Forall (fun x => In (fst x) ATOM_SPECIES) loaded).
  { unfold loaded. apply Forall_map. apply Forall_forall. intros x X. cbn [fst]. unfold s in X. apply (proj1 (sort_in _ _)) in X. unfold entries in X. apply in_map_iff in X.
    destruct X as (y & <- & Y). rewrite Forall_forall in G. cbn [fst]. auto. }
  eexists. split; [apply dump_text; [apply loaded_describes; exact KL|exact M]|].
  assert (MM : mfixed d (mfixed d cell) = mfixed d cell) by (unfold mfixed, vfixed, vmap; cbn [row1 row2 row3 vx vy vz]; rewrite !fixed_idem; reflexivity).
  assert (EL : sort_entries (entries mode (mfixed d cell) loaded) = map (fun x => (fst x, vfixed d (snd x))) s).
  { assert (E1 : entries mode (mfixed d cell) loaded = map (fun x => (fst x, vfixed d (snd x))) s).
    { unfold entries, loaded. rewrite map_map. apply map_ext. intros x. cbn [fst snd]. f_equal. unfold forward, backward. destruct (String.eqb mode "Direct") eqn:MD; auto.
      assert (DN : det (mfixed d cell) <> 0) by (destruct C as [->|C]; [discriminate|exact C]). rewrite vmat_mmul, minv_l, vmat_id by auto. reflexivity. }
    rewrite E1. apply sort_of_sorted. apply map_fst_sorted. exact S. }
  rewrite EL. assert (S2 : StronglySorted entry_le (map (fun x => (fst x, vfixed d (snd x))) s)) by (apply map_fst_sorted; exact S).
  assert (EG2 : entry_good (map (fun x => (fst x, vfixed d (snd x))) s)) by (apply Forall_map; exact EG).
  rewrite readlines_concat by (apply lines_ok; auto; apply replace_free).
  rewrite load_lines; auto; [|rewrite MM; tauto]. rewrite MM. eexists. do 3 f_equal. unfold loaded. rewrite map_map. apply map_ext. intros x. cbn [fst snd].
  unfold vfixed, vmap. cbn [vx vy vz]. rewrite !fixed_idem. reflexivity.
Qed.
Print Assumptions C46_second_round_trip.
(* "All new lines symbols are replaced with spaces": a carriage return is not, and reading the file ends the
   comment there, so that the next line is taken for the scale factor. *)
Theorem C46_carriage_return_refuted : exists cell atoms comment text,
  dump_poscar "" cell atoms (Some comment) 8 "Direct" = Ok text /\
  (exists r, load_poscar (readlines text) = Ok r) /\ load_poscar (readlines (universal_newlines text)) = Err ValueError.
Proof.
  assert (D : describes [("species", PList []); ("positions", PList [])] []).
  { split; [exists []; split; [reflexivity|constructor]|left; reflexivity]. }
  exists mid, [("species", PList []); ("positions", PList [])], (String.append "a" (String CR "b")). eexists.
  split; [change 8%Z with (Z.of_nat 8); apply dump_text; [exact D|cbn; auto]|]. split.
  - rewrite readlines_concat by (apply lines_ok; [constructor|constructor|apply replace_free|cbn; auto]). rewrite load_lines; [eauto|constructor|constructor|cbn; auto|auto].
  - reflexivity.
Qed.
Print Assumptions C46_carriage_return_refuted.
Example C46_case : exists text, dump_poscar "" (mk 1 0 0 0 2 0 0 0 3) [("names", PList [PStr "Fe1"; PStr "Br2"; PStr "Fe3"]);
     ("positions", PList [PList [PFloat (1/2); PInt 0; PInt 0]; PList [PInt 0; PInt 0; PInt 0]; PList [PInt 0; PFloat (1/4); PInt 0]])] (Some "a comment") 2 "Cartesian" = Ok text /\
  load_poscar (readlines text) = Ok (mk 1 0 0 0 2 0 0 0 3, [("Br", V3 0 0 0); ("Fe", V3 (1/2) 0 0); ("Fe", V3 0 (1/4) 0)], "a comment").
Proof.
  set (c := mk 1 0 0 0 2 0 0 0 3).
  match goal with |- context [dump_poscar _ _ ?a _ _ _] => set (atoms := a) end.
  assert (D : describes atoms [("Fe", V3 (1/2) 0 0); ("Br", V3 0 0 0); ("Fe", V3 0 (1/4) 0)]).
  { split; [eexists; split; [reflexivity|repeat constructor]|]. right. split; [reflexivity|]. exists ["Fe1"; "Br2"; "Fe3"]. split; [reflexivity|]. repeat constructor. }
  eexists. split; [change 2%Z with (Z.of_nat 2); apply dump_text; [exact D|cbn; auto]|].
  assert (FX : forall z, fixed 2 (IZR z / 100) = IZR z / 100) by (intros z; exact (fixed_grid 2 z)).
  assert (F0 : fixed 2 0 = 0) by (replace 0 with (IZR 0 / 100) at 1 by field; rewrite FX; field).
  assert (F1 : fixed 2 1 = 1) by (replace 1 with (IZR 100 / 100) at 1 by field; rewrite FX; field).
  assert (F2 : fixed 2 2 = 2) by (replace 2 with (IZR 200 / 100) at 1 by field; rewrite FX; field).
  assert (F3 : fixed 2 3 = 3) by (replace 3 with (IZR 300 / 100) at 1 by field; rewrite FX; field).
  assert (FH : fixed 2 (1/2) = 1/2) by (replace (1/2) with (IZR 50 / 100) at 1 by field; rewrite FX; field).
  assert (MC : mfixed 2 c = c) by (unfold mfixed, vfixed, vmap, c, mk; cbn [row1 row2 row3 vx vy vz]; rewrite F0, F1, F2, F3; reflexivity).
  assert (DC : det c <> 0) by (unfold c; vunfold; lra).
  set (s := sort_entries _).
  assert (ES : s = [("Br", V3 0 0 0); ("Fe", V3 (1/2) 0 0); ("Fe", V3 0 (1/2) 0)]).
  { unfold s. cbn [entries map fst snd forward]. unfold forward. change (String.eqb "Cartesian" "Direct") with false. cbv iota.
    assert (V : forall x y z, vmat (V3 x y z) c = V3 x (2 * y) (3 * z)) by (intros; unfold c; vunfold; f_equal; ring). rewrite !V.
    cbv [sort_entries fold_right insert_entry fst]. 
    change (str_ltb "Fe" "Fe") with false. change (str_ltb "Br" "Fe") with true. change (str_ltb "Fe" "Br") with false. cbv iota.
    replace (2 * (1 / 4)) with (1 / 2) by field. rewrite !Rmult_0_r. reflexivity. }
  assert (S : StronglySorted entry_le s) by apply sort_sorted.
  assert (EG : entry_good s) by (rewrite ES; repeat constructor; cbn [fst]; apply known_word; apply mem_true; vm_compute; reflexivity).
  rewrite readlines_concat by (apply lines_ok; auto; [apply replace_free|cbn; auto]).
  rewrite load_lines; auto; [|cbn; auto|right; left; rewrite MC; exact DC]. rewrite MC, ES. change (strip (String.append (comment_text "" (Some "a comment")) (String LF ""))) with "a comment".
  do 3 f_equal. cbn [map fst snd]. unfold backward, vfixed, vmap. cbn [vx vy vz]. rewrite F0, FH. change (String.eqb "Cartesian" "Direct") with false. cbv iota.
  assert (V : forall x y z, vmat (V3 x y z) (minv_total c) = V3 x (y / 2) (z / 3)) by (intros; unfold c, minv_total; vunfold; f_equal; field).
  rewrite !V. replace (1 / 2 / 2) with (1 / 4) by field. replace (0 / 2) with 0 by field. replace (0 / 3) with 0 by field. reflexivity.
Qed.

(* ================= C47 ================= *)
Lemma line_tail a b c r i : line (a :: b :: r) (S (S i)) = line (a :: c :: r) (S (S i)).
Proof. reflexivity. Qed.
Lemma mapM_ext_ok {A B} (f g : A -> res B) l r : mapM f l = Ok r -> (forall a b, f a = Ok b -> g a = Ok b) -> mapM g l = Ok r.
Proof.
  revert r. induction l as [|a l IH]; intros r H E; cbn [mapM] in *; [exact H|].
  destruct (f a) as [b|] eqn:FA; [|discriminate]. rewrite (E _ _ FA). cbn [bind] in *.
  destruct (mapM f l) as [t|]; [|discriminate]. cbn [bind] in H. rewrite (IH t eq_refl E). exact H.
Qed.
(* two files that differ in the second line only *)
Lemma change_scale l0 u s rest su ss c1 atoms c : parse_floats u = Ok su -> parse_floats s = Ok ss ->
  load_poscar (l0 :: u :: rest) = Ok (c1, atoms, c) ->
  (forall cell0 v1, apply_scale su cell0 = Ok (c1, v1) -> exists c2 v2, apply_scale ss cell0 = Ok (c2, v2) /\
     forall p i1, minv c1 = Ok i1 -> exists i2, minv c2 = Ok i2 /\ vmat (vmul p v2) i2 = vmat (vmul p v1) i1) ->
  exists cell0 v1 c2 v2, apply_scale su cell0 = Ok (c1, v1) /\ apply_scale ss cell0 = Ok (c2, v2) /\ load_poscar (l0 :: s :: rest) = Ok (c2, atoms, c).
Proof.
  intros PU PS L H. revert L. unfold load_poscar.
  change (line (l0 :: u :: rest) 0) with (Ok l0). change (line (l0 :: s :: rest) 0) with (Ok l0). cbn [bind].
  change (line (l0 :: u :: rest) 1) with (Ok u). change (line (l0 :: s :: rest) 1) with (Ok s). cbn [bind]. rewrite PU, PS. cbn [bind].
  change (skipn 2 (l0 :: u :: rest)) with rest. change (skipn 2 (l0 :: s :: rest)) with rest.
  destruct (mapM _ (firstn 3 rest)) as [rows|]; [|discriminate]. cbn [bind].
  match goal with |- bind ?x _ = _ -> _ => destruct x as [cell0|]; [|discriminate] end. cbn [bind].
  destruct (apply_scale su cell0) as [[c1' v1]|] eqn:A1; [|discriminate]. cbn [bind].
  rewrite (line_tail l0 u s rest 3).
  destruct (line (l0 :: s :: rest) 5) as [l5|]; [|discriminate]. cbn [bind].
  rewrite (line_tail l0 u s rest 4).
  match goal with |- bind ?x _ = _ -> _ => destruct x as [[[names counts] index]|] eqn:NX; [|discriminate] end. cbn [bind].
  assert (IX : exists j, index = S (S j)).
  { destruct (existsb _ _) in NX; [destruct (line _ 6) in NX; cbn [bind] in NX|]; inversion NX; [exists 5%nat|exists 4%nat]; reflexivity. }
  destruct IX as (j & ->).
  destruct (mapM parse_int counts) as [ions|]; [|discriminate]. cbn [bind].
  rewrite (line_tail l0 u s rest j).
  destruct (line (l0 :: s :: rest) (S (S j))) as [lj|]; [|discriminate]. cbn [bind].
  destruct (first_char lj) as [cj|]; [|discriminate]. cbn [bind]. cbv zeta.
  set (k := if Ascii.eqb (lower_ascii cj) "s"%char then S (S (S j)) else S (S j)).
  assert (KX : exists i, k = S (S i)) by (unfold k; destruct (Ascii.eqb _ _); eauto). destruct KX as (i & EK). rewrite EK.
  rewrite (line_tail l0 u s rest i).
  destruct (line (l0 :: s :: rest) (S (S i))) as [li|]; [|discriminate]. cbn [bind].
  destruct (first_char li) as [ci|]; [|discriminate]. cbn [bind].
  match goal with |- bind (mapM ?f ?l) _ = _ -> _ => destruct (mapM f l) as [at1|] eqn:ME; [|discriminate] end. cbn [bind].
  intros L. inversion L; subst c1' at1 c. clear L.
  destruct (H cell0 v1 A1) as (c2 & v2 & A2 & HP). exists cell0, v1, c2, v2. split; [exact A1|]. split; [exact A2|]. rewrite A2. cbn [bind].
  eapply mapM_ext_ok in ME; [rewrite ME; reflexivity|]. intros [a b] x. unfold read_atom. cbn [fst snd].
  change (S (S (S i)) + a)%nat with (S (S (S i + a)))%nat. rewrite (line_tail l0 u s rest).
  destruct (line (l0 :: s :: rest) (S (S (S i + a)))) as [la|]; cbn [bind]; [|intros Z; discriminate Z].
  destruct (mapM parse_float (firstn 3 (words la))) as [xs|]; cbn [bind]; [|intros Z; discriminate Z]. cbn [bind]. destruct (three xs) as [p|]; [|discriminate]. cbn [bind].
  match goal with |- context [if ?b then _ else _] => destruct b end; [|auto].
  destruct (minv c1) as [i1|] eqn:I1; [|discriminate]. cbn [bind]. destruct (HP p i1 eq_refl) as (i2 & I2 & E). rewrite I2. cbn [bind]. rewrite E. auto.
Qed.
Lemma minv_scale f c i : f <> 0 -> minv c = Ok i -> minv (mscale f c) = Ok (mscale (/ f) i).
Proof.
  intros F H. apply minv_ok in H. destruct H as [D ->]. assert (DS : det (mscale f c) <> 0).
  { replace (det (mscale f c)) with (f * f * f * det c) by (destruct c as [[] [] []]; vunfold; ring). repeat apply Rmult_integral_contrapositive_currified; auto. }
  apply minv_ok. split; [exact DS|].
  assert (E : mmul (mscale f c) (mscale (/ f) (minv_total c)) = mid).
  { rewrite <- (minv_r c D). generalize (minv_total c). clear - F. intros i. destruct c as [[] [] []], i as [[] [] []]. vunfold. f_equal; f_equal; field; auto. }
  rewrite <- (mmul_id_l (mscale (/ f) (minv_total c))). rewrite <- (minv_l (mscale f c) DS). rewrite <- mmul_assoc || rewrite mmul_assoc. rewrite E, mmul_id_r. reflexivity.
Qed.
Lemma mscale_1 c : mscale 1 c = c.
Proof. destruct c as [[] [] []]. vunfold. f_equal; f_equal; ring. Qed.
Lemma scale_same f c1 p i1 : f <> 0 -> minv c1 = Ok i1 -> exists i2, minv (mscale f c1) = Ok i2 /\ vmat (vmul p (V3 f f f)) i2 = vmat (vmul p (V3 1 1 1)) i1.
Proof.
  intros F I. exists (mscale (/ f) i1). split; [apply minv_scale; auto|]. clear I. destruct p as [x y z], i1 as [[] [] []]. unfold vmul. vunfold. f_equal; field; auto.
Qed.
(* A single positive factor multiplies the cell and changes neither names nor relative positions, whether they
   are given in direct or in Cartesian coordinates. *)
Theorem C47_single_factor : forall l0 one s rest f cell atoms c, parse_floats one = Ok [1] -> parse_floats s = Ok [f] -> 0 < f ->
  load_poscar (l0 :: one :: rest) = Ok (cell, atoms, c) -> load_poscar (l0 :: s :: rest) = Ok (mscale f cell, atoms, c).
Proof.
  intros l0 one s rest f cell atoms c P1 PF F L.
  destruct (change_scale l0 one s rest _ _ _ _ _ P1 PF L) as (c0 & v1 & c2 & v2 & A1 & A2 & L2).
  - unfold apply_scale. replace (Rltb 1 0) with false by (symmetry; apply Rltb_false; lra). replace (Rltb f 0) with false by (symmetry; apply Rltb_false; lra). cbn [bind].
    intros cell0 v1 E. inversion E; subst. do 2 eexists. split; [reflexivity|]. intros p i1. rewrite mscale_1. intros I. apply scale_same; [lra|exact I].
  - revert A1 A2. unfold apply_scale. replace (Rltb 1 0) with false by (symmetry; apply Rltb_false; lra). replace (Rltb f 0) with false by (symmetry; apply Rltb_false; lra). cbn [bind].
    rewrite mscale_1. intros E1 E2. inversion E1; inversion E2; subst. exact L2.
Qed.
Print Assumptions C47_single_factor.
Lemma mscale_det f c : det (mscale f c) = f * f * f * det c.
Proof. destruct c as [[] [] []]. vunfold. ring. Qed.
(* A negative factor should give the volume |f|.  It does so only if the volume is |f| without any scaling. *)
Theorem C47_negative_factor : forall l0 one s rest f cell atoms c, parse_floats one = Ok [1] -> parse_floats s = Ok [f] -> f < 0 -> det cell <> 0 ->
  load_poscar (l0 :: one :: rest) = Ok (cell, atoms, c) ->
  exists cell', load_poscar (l0 :: s :: rest) = Ok (cell', atoms, c) /\
    get_volume (VolCell cell') = Ok (Rabs f ^ 3 / Rabs (det cell) ^ 2) /\
    (get_volume (VolCell cell') = Ok (Rabs f) <-> Rabs f = Rabs (det cell)).
Proof.
  intros l0 one s rest f cell atoms c P1 PF F DC L.
  assert (V : 0 < Rabs (det cell)) by (apply Rabs_pos_lt; auto). assert (FP : 0 < Rabs f) by (apply Rabs_pos_lt; lra).
  set (g := Rabs (f / Rabs (det cell))).
  assert (G : g = Rabs f / Rabs (det cell)) by (unfold g, Rdiv; rewrite Rabs_mult, Rabs_inv, Rabs_Rabsolu; reflexivity).
  assert (GP : 0 < g) by (rewrite G; apply Rmult_lt_0_compat; [auto|apply Rinv_0_lt_compat; auto]).
  assert (AS : apply_scale [f] cell = Ok (mscale g cell, V3 g g g)).
  { unfold apply_scale. replace (Rltb f 0) with true by (symmetry; apply Rltb_true; lra). cbn [get_volume bind].
    replace (Reqb (Rabs (det cell)) 0) with false by (symmetry; apply Reqb_false; lra). reflexivity. }
  destruct (change_scale l0 one s rest _ _ _ _ _ P1 PF L) as (c0 & v1 & c2 & v2 & A1 & A2 & L2).
  - intros cell0 v1 E. assert (E' : cell0 = cell /\ v1 = V3 1 1 1).
    { revert E. unfold apply_scale. replace (Rltb 1 0) with false by (symmetry; apply Rltb_false; lra). cbn [bind]. rewrite mscale_1. intros E; inversion E; auto. }
    destruct E' as [-> ->]. do 2 eexists. split; [exact AS|]. intros p i1 I. apply scale_same; [lra|exact I].
  - assert (E' : c0 = cell).
    { revert A1. unfold apply_scale. replace (Rltb 1 0) with false by (symmetry; apply Rltb_false; lra). cbn [bind]. rewrite mscale_1. intros E; inversion E; auto. }
    subst c0. rewrite AS in A2. inversion A2; subst c2 v2. exists (mscale g cell). split; [exact L2|].
    assert (VE : get_volume (VolCell (mscale g cell)) = Ok (Rabs f ^ 3 / Rabs (det cell) ^ 2)).
    { cbn [get_volume]. f_equal. rewrite mscale_det, !Rabs_mult, (Rabs_right g) by lra. rewrite G. field. lra. }
    split; [exact VE|]. rewrite VE. clear - V FP. set (v := Rabs (det cell)) in *. set (w := Rabs f) in *. split; intros H.
    + injection H as H. assert (Q : w ^ 3 = w * v ^ 2) by (apply (f_equal (fun x => x * v ^ 2)) in H; rewrite <- H; field; lra).
      assert (w * ((w - v) * (w + v)) = 0) by nra. apply Rmult_integral in H0. destruct H0; [lra|]. apply Rmult_integral in H0. destruct H0; lra.
    + rewrite H. f_equal. field. lra.
Qed.
Print Assumptions C47_negative_factor.
(* Three factors: a non-positive one, or any other number of factors, is refused. *)
Theorem C47_refused : forall l0 s rest fs, parse_floats s = Ok fs -> length fs <> 1%nat -> ~ (length fs = 3%nat /\ Forall (fun f => 0 < f) fs) ->
  forall r, load_poscar (l0 :: s :: rest) <> Ok r.
Proof.
  intros l0 s rest fs P L1 L3 r. unfold load_poscar. change (line (l0 :: s :: rest) 0) with (Ok l0). cbn [bind]. change (line (l0 :: s :: rest) 1) with (Ok s). cbn [bind]. rewrite P. cbn [bind].
  destruct (mapM _ _) as [rows|]; [|discriminate]. cbn [bind]. match goal with |- bind ?x _ <> _ => destruct x as [cell|]; [|discriminate] end. cbn [bind].
  assert (A : apply_scale fs cell = Err ValueError).
  { destruct fs as [|a [|b [|e [|? ?]]]]; try reflexivity; [cbn in L1; congruence|]. cbn [apply_scale].
    destruct (Rltb_spec 0 a), (Rltb_spec 0 b), (Rltb_spec 0 e); try reflexivity. exfalso. apply L3. split; [reflexivity|]. repeat constructor; auto. }
  rewrite A. discriminate.
Qed.
Print Assumptions C47_refused.
(* Three equal factors act as one. *)
Theorem C47_equal_factors : forall l0 one s rest f cell atoms c, parse_floats one = Ok [1] -> parse_floats s = Ok [f; f; f] -> 0 < f ->
  load_poscar (l0 :: one :: rest) = Ok (cell, atoms, c) -> load_poscar (l0 :: s :: rest) = Ok (mscale f cell, atoms, c).
Proof.
  intros l0 one s rest f cell atoms c P1 PF F L.
  assert (AS : forall m, apply_scale [f; f; f] m = Ok (mscale f m, V3 f f f)).
  { intros m. cbn [apply_scale]. replace (Rltb 0 f) with true by (symmetry; apply Rltb_true; lra). reflexivity. }
  destruct (change_scale l0 one s rest _ _ _ _ _ P1 PF L) as (c0 & v1 & c2 & v2 & A1 & A2 & L2).
  - unfold apply_scale at 1. replace (Rltb 1 0) with false by (symmetry; apply Rltb_false; lra). cbn [bind].
    intros cell0 v1 E. inversion E; subst. do 2 eexists. split; [apply AS|]. intros p i1. rewrite mscale_1. intros I. apply scale_same; [lra|exact I].
  - rewrite AS in A2. revert A1. unfold apply_scale. replace (Rltb 1 0) with false by (symmetry; apply Rltb_false; lra). cbn [bind].
    rewrite mscale_1. intros E1. inversion E1; inversion A2; subst. exact L2.
Qed.
Print Assumptions C47_equal_factors.
(* Different factors: the rows of the cell but the components of the Cartesian positions are scaled, so that
   the atom moves within the cell. *)
Definition file_with (scale : string) : list string := ["x"; scale; "0 1 0"; "1 0 0"; "0 0 1"; "Fe"; "1"; "Cartesian"; "1 0 0"].
Lemma parse_digit_0 : parse_float "0" = Ok 0.
Proof. replace (parse_float "0") with (Ok (0 / 1)) by reflexivity. f_equal. field. Qed.
Lemma parse_digit_1 : parse_float "1" = Ok 1.
Proof. replace (parse_float "1") with (Ok (1 / 1)) by reflexivity. f_equal. field. Qed.
Lemma parse_digit_2 : parse_float "2" = Ok 2.
Proof. replace (parse_float "2") with (Ok (2 / 1)) by reflexivity. f_equal. field. Qed.
Lemma load_file scale sc cell v : parse_floats scale = Ok sc -> apply_scale sc (mk 0 1 0 1 0 0 0 0 1) = Ok (cell, v) ->
  load_poscar (file_with scale) = do inv <- minv cell; Ok (cell, [("Fe", vmat (vmul (V3 1 0 0) v) inv)], "x").
Proof.
  intros P A. unfold load_poscar. change (line (file_with scale) 0) with (Ok "x"). cbn [bind]. change (line (file_with scale) 1) with (Ok scale). cbn [bind]. rewrite P. cbn [bind].
  change (firstn 3 (skipn 2 (file_with scale))) with ["0 1 0"; "1 0 0"; "0 0 1"]. cbn [mapM]. unfold parse_floats.
  change (words "0 1 0") with ["0"; "1"; "0"]. change (words "1 0 0") with ["1"; "0"; "0"]. change (words "0 0 1") with ["0"; "0"; "1"]. cbn [mapM].
  rewrite parse_digit_0, parse_digit_1. cbn [bind three]. change (M3 (V3 0 1 0) (V3 1 0 0) (V3 0 0 1)) with (mk 0 1 0 1 0 0 0 0 1). rewrite A. cbn [bind].
  change (line (file_with scale) 5) with (Ok "Fe"). cbn [bind]. change (words "Fe") with ["Fe"]. change (existsb (fun s => negb (parses s)) ["Fe"]) with true. cbv iota.
  change (line (file_with scale) 6) with (Ok "1"). cbn [bind]. change (words "1") with ["1"]. cbn [mapM]. change (parse_int "1") with (Ok 1%Z). cbn [bind].
  change (line (file_with scale) 7) with (Ok "Cartesian"). cbn [bind first_char]. cbv zeta. change (Ascii.eqb (lower_ascii "C") "s") with false. cbv iota.
  change (line (file_with scale) 7) with (Ok "Cartesian"). cbn [bind first_char]. change (Ascii.eqb (lower_ascii "C") "c" || Ascii.eqb (lower_ascii "C") "k")%bool with true.
  change (enumerate (species_indices [1%Z] 0)) with [(0%nat, 0%nat)]. cbn [mapM fst snd]. unfold read_atom. change (line (file_with scale) (8 + 0)) with (Ok "1 0 0"). cbn [bind].
  change (words "1 0 0") with ["1"; "0"; "0"]. cbn [firstn mapM]. rewrite parse_digit_0, parse_digit_1. cbn [bind three].
  destruct (minv cell); reflexivity.
Qed.
Theorem C47_three_factors_refuted : exists l0 one s rest cell cell' p q c,
  parse_floats one = Ok [1] /\ parse_floats s = Ok [2; 1; 1] /\
  load_poscar (l0 :: one :: rest) = Ok (cell, [("Fe", p)], c) /\ load_poscar (l0 :: s :: rest) = Ok (cell', [("Fe", q)], c) /\ q <> p.
Proof.
  set (m := mk 0 1 0 1 0 0 0 0 1).
  assert (P1 : parse_floats "1" = Ok [1]) by (unfold parse_floats; change (words "1") with ["1"]; cbn [mapM]; rewrite parse_digit_1; reflexivity).
  assert (P2 : parse_floats "2 1 1" = Ok [2; 1; 1]) by (unfold parse_floats; change (words "2 1 1") with ["2"; "1"; "1"]; cbn [mapM]; rewrite parse_digit_1, parse_digit_2; reflexivity).
  assert (A1 : apply_scale [1] m = Ok (m, V3 1 1 1)).
  { unfold apply_scale. replace (Rltb 1 0) with false by (symmetry; apply Rltb_false; lra). cbn [bind]. rewrite mscale_1. reflexivity. }
  assert (A2 : apply_scale [2; 1; 1] m = Ok (mk 0 2 0 1 0 0 0 0 1, V3 2 1 1)).
  { unfold apply_scale. replace (Rltb 0 2) with true by (symmetry; apply Rltb_true; lra). replace (Rltb 0 1) with true by (symmetry; apply Rltb_true; lra). cbn [andb].
    do 2 f_equal. unfold m. vunfold. f_equal; f_equal; ring. }
  exists "x", "1", "2 1 1", (skipn 2 (file_with "")). do 5 eexists. split; [exact P1|]. split; [exact P2|].
  assert (D1 : det m <> 0) by (unfold m; vunfold; lra). assert (D2 : det (mk 0 2 0 1 0 0 0 0 1) <> 0) by (vunfold; lra).
  split; [|split].
  - change ("x" :: "1" :: skipn 2 (file_with "")) with (file_with "1"). rewrite (load_file _ _ _ _ P1 A1), (proj2 (minv_ok _ _) (conj D1 eq_refl)). reflexivity.
  - change ("x" :: "2 1 1" :: skipn 2 (file_with "")) with (file_with "2 1 1"). rewrite (load_file _ _ _ _ P2 A2), (proj2 (minv_ok _ _) (conj D2 eq_refl)). reflexivity.
  - intros E. apply (f_equal vy) in E. revert E. unfold m, minv_total, vmul. vunfold. intros E. match type of E with ?a = ?b => replace a with 2 in E by (field; lra); replace b with 1 in E by (field; lra) end. lra.
Qed.
Print Assumptions C47_three_factors_refuted.
Example C47_case : exists c atoms, load_poscar (file_with "1") = Ok (mk 0 1 0 1 0 0 0 0 1, atoms, c) /\ det (mk 0 1 0 1 0 0 0 0 1) <> 0.
Proof.
  assert (P1 : parse_floats "1" = Ok [1]) by (unfold parse_floats; change (words "1") with ["1"]; cbn [mapM]; rewrite parse_digit_1; reflexivity).
  set (m := mk 0 1 0 1 0 0 0 0 1).
  assert (A1 : apply_scale [1] m = Ok (m, V3 1 1 1)).
  { unfold apply_scale. replace (Rltb 1 0) with false by (symmetry; apply Rltb_false; lra). cbn [bind]. rewrite mscale_1. reflexivity. }
  assert (D1 : det m <> 0) by (unfold m; vunfold; lra).
  rewrite (load_file _ _ _ _ P1 A1), (proj2 (minv_ok _ _) (conj D1 eq_refl)). cbn [bind]. eauto.
Qed.

(* ================= C48 ================= *)
(* Names from which no species can be deduced: the documented ValueError is raised only if the dictionary has,
   by chance, a key "name"; otherwise the lookup of that key inside the error message fails. *)
Lemma mapM_first_err {A B} (f : A -> res B) l e : (forall a, In a l -> (exists b, f a = Ok b) \/ f a = Err e) -> (exists a, In a l /\ f a = Err e) -> mapM f l = Err e.
Proof.
  induction l as [|x l IH]; intros H (a & I & E); [destruct I|]. cbn [mapM]. destruct (H x (or_introl eq_refl)) as [(b & FX)|FX]; rewrite FX; [|reflexivity]. cbn [bind].
  destruct I as [->|I]; [congruence|]. rewrite IH; [reflexivity|intros y Y; apply H; right; exact Y|eauto].
Qed.
Definition undeducible (name : string) : Prop := forall s, In s ATOM_SPECIES -> contains (lower s) (lower name) = false.
Lemma deduce_none name acc t : (forall s, In s t -> contains (lower s) (lower name) = false) -> deduce name acc t = acc.
Proof. induction t as [|x t IH]; intros H; cbn [deduce]; auto. rewrite (H x (or_introl eq_refl)). apply IH. intros s S. apply H. right. exact S. Qed.
Lemma undeducible_error now cell atoms names rows ps comment d mode e :
  lookup "species" atoms = None -> lookup "names" atoms = Some (PList (map PStr names)) -> lookup "positions" atoms = Some (PList rows) ->
  Forall2 (fun r p => to_row r = Ok p) rows ps -> length names = length rows -> In mode ["Direct"; "Cartesian"] ->
  (exists name, In name names /\ undeducible name) ->
  (forall i, (i < length names)%nat -> (do v <- getitem "name" atoms; do _ <- subscript v i; Err ValueError) = (Err e : res string)) ->
  dump_poscar now cell atoms comment d mode = Err e.
Proof.
  intros S N P F LN M (name & IN & U) HE. unfold dump_poscar. cbv zeta. rewrite (proj2 (mem_true _ _) M). cbn [negb]. rewrite (proj2 (getitem_ok _ _ _) P). cbn [bind py_len].
  rewrite (mapM_first_err _ _ e); [reflexivity| |].
  - intros i I. apply in_seq in I. cbn [Nat.add] in I. destruct I as [_ I]. unfold atom_entry. rewrite S, (proj2 (getitem_ok _ _ _) N), (proj2 (getitem_ok _ _ _) P). cbn [bind subscript elements].
    rewrite nth_error_map. destruct (nth_error names i) as [nm|] eqn:NI; [|apply nth_error_None in NI; lia]. cbn [option_map bind expect_str].
    unfold get_atom_species. generalize (deduce nm "X" ATOM_SPECIES). intros t. cbv zeta. destruct (String.eqb t "X") eqn:TX; cbn [bind]; rewrite ?TX.
    + right. rewrite HE by lia. reflexivity.
    + left. cbn [bind]. destruct (nth_error rows i) as [r|] eqn:RI; [|apply nth_error_None in RI; lia]. cbn [bind].
      assert (RX : exists p, to_row r = Ok p). { clear - F RI. revert i RI. induction F; intros [|i] E; cbn in *; try discriminate; [inversion E; subst; eauto|eauto]. }
      destruct RX as (p & RX). rewrite RX. cbn [bind]. eauto.
  - apply In_nth_error in IN. destruct IN as (i & NI). assert (IL : (i < length names)%nat) by (apply nth_error_Some; congruence).
    exists i. split; [apply in_seq; lia|]. unfold atom_entry. rewrite S, (proj2 (getitem_ok _ _ _) N). cbn [bind subscript elements]. rewrite nth_error_map, NI. cbn [option_map bind expect_str].
    assert (G : get_atom_species name false = Ok "X") by (unfold get_atom_species; rewrite (deduce_none name "X" ATOM_SPECIES U); reflexivity). rewrite G. cbn [bind]. change (String.eqb "X" "X") with true. cbv iota.
    rewrite HE by exact IL. reflexivity.
Qed.
Theorem C48_key_error : forall now cell atoms names rows ps comment d mode,
  lookup "species" atoms = None -> lookup "names" atoms = Some (PList (map PStr names)) -> lookup "positions" atoms = Some (PList rows) ->
  Forall2 (fun r p => to_row r = Ok p) rows ps -> length names = length rows -> In mode ["Direct"; "Cartesian"] ->
  (exists name, In name names /\ undeducible name) -> ~ In "name" (keys atoms) ->
  dump_poscar now cell atoms comment d mode = Err KeyError.
Proof.
  intros now cell atoms names rows ps comment d mode S N P F LN M U NK. eapply undeducible_error; eauto.
  intros i _. rewrite (proj2 (getitem_err _ _ _) (conj NK eq_refl)). reflexivity.
Qed.
Print Assumptions C48_key_error.
Theorem C48_value_error : forall now cell atoms names rows ps other comment d mode,
  lookup "species" atoms = None -> lookup "names" atoms = Some (PList (map PStr names)) -> lookup "positions" atoms = Some (PList rows) ->
  Forall2 (fun r p => to_row r = Ok p) rows ps -> length names = length rows -> In mode ["Direct"; "Cartesian"] ->
  (exists name, In name names /\ undeducible name) -> lookup "name" atoms = Some (PList other) -> (length names <= length other)%nat ->
  dump_poscar now cell atoms comment d mode = Err ValueError.
Proof.
  intros now cell atoms names rows ps other comment d mode S N P F LN M U NK LO. eapply undeducible_error; eauto.
  intros i I. rewrite (proj2 (getitem_ok _ _ _) NK). cbn [bind subscript elements]. destruct (nth_error other i) eqn:E; [reflexivity|]. apply nth_error_None in E. lia.
Qed.
Print Assumptions C48_value_error.
Theorem C48_documented_error_refuted : exists cell atoms, validate_atoms atoms ["positions"; "names"] true = Ok true /\
  (exists name, lookup "names" atoms = Some (PList [PStr name]) /\ undeducible name) /\
  dump_poscar "" cell atoms (Some "comment") 8 "Direct" = Err KeyError.
Proof.
  assert (U : undeducible "1").
  { assert (A : forallb (fun s => negb (contains (lower s) (lower "1"))) ATOM_SPECIES = true) by (vm_compute; reflexivity).
    intros s S. rewrite forallb_forall in A. specialize (A s S). apply negb_true_iff in A. exact A. }
  exists mid, [("names", PList [PStr "1"]); ("positions", PList [PList [PInt 0; PInt 0; PInt 0]])]. split; [reflexivity|]. split; [exists "1"; split; [reflexivity|exact U]|].
  apply (C48_key_error _ _ _ ["1"] [PList [PInt 0; PInt 0; PInt 0]] [V3 0 0 0]); try reflexivity.
  - repeat constructor.
  - cbn. auto.
  - exists "1". split; [left; reflexivity|exact U].
  - cbn. intros [X|[X|[]]]; discriminate.
Qed.
Print Assumptions C48_documented_error_refuted.
(* The file gets nothing for an unknown mode: the check precedes everything else. *)
Lemma species_total w : exists r, get_atom_species w false = Ok r.
Proof. unfold get_atom_species. generalize (deduce w "X" ATOM_SPECIES). intros t. cbv zeta. destruct (String.eqb t "X"); eauto. Qed.
Lemma species_X w : get_atom_species w false = Ok "X" -> undeducible w.
Proof.
  unfold get_atom_species, undeducible. pose proof (deduce_cases w) as D. cbv zeta in D. revert D.
  generalize (deduce w "X" ATOM_SPECIES). generalize ATOM_SPECIES. intros table t D. cbv zeta. destruct (String.eqb_spec t "X") as [E|E]; intros G; [|congruence].
  destruct D as [(_ & _ & N)|(_ & N)]; [contradiction|]. intros s I.
  destruct (contains (lower s) (lower w)) eqn:C; [|reflexivity]. destruct (N s I). apply occurs_spec. exact C.
Qed.
(* The lists of the dictionary are not compared: a list of species or names shorter than the positions is an
   IndexError, what is longer than the positions is silently left out. *)
Theorem C48_short_list : forall now cell atoms key words rows ps comment d mode,
  (key = "species" \/ (key = "names" /\ lookup "species" atoms = None /\ forall w, In w words -> ~ undeducible w)) ->
  lookup key atoms = Some (PList (map PStr words)) -> lookup "positions" atoms = Some (PList rows) ->
  Forall2 (fun r p => to_row r = Ok p) rows ps -> (length words < length rows)%nat -> In mode ["Direct"; "Cartesian"] ->
  dump_poscar now cell atoms comment d mode = Err IndexError.
Proof.
  intros now cell atoms key ws rows ps comment d mode K W P F L M. unfold dump_poscar. cbv zeta. rewrite (proj2 (mem_true _ _) M). cbn [negb].
  rewrite (proj2 (getitem_ok _ _ _) P). cbn [bind py_len].
  assert (TY : exists g, forall i, (i < length rows)%nat -> atom_entry cell atoms mode i =
    match nth_error ws i with None => Err IndexError | Some w => do r <- g w; do x <- (match nth_error rows i with Some x => Ok x | None => Err IndexError end);
       do p <- to_row x; Ok (r, if String.eqb mode "Direct" then p else vmat p cell) end /\ forall w, In w ws -> exists r, g w = Ok r).
  { destruct K as [->|(-> & S & U)].
    - exists (fun w => Ok w). intros i _. split; [|eauto]. unfold atom_entry. rewrite W, (proj2 (getitem_ok _ _ _) P). cbn [bind subscript elements]. rewrite nth_error_map.
      destruct (nth_error ws i); reflexivity.
    - exists (fun w => get_atom_species w false). intros i _. split.
      + unfold atom_entry. rewrite S, (proj2 (getitem_ok _ _ _) W), (proj2 (getitem_ok _ _ _) P). cbn [bind subscript elements]. rewrite nth_error_map.
        destruct (nth_error ws i) as [w|] eqn:E; [|reflexivity]. cbn [option_map bind expect_str].
        destruct (get_atom_species w false) as [t|] eqn:G; [|reflexivity]. cbn [bind].
        destruct (String.eqb_spec t "X") as [TX|TX]; [|reflexivity]. exfalso. apply (U w); [eapply nth_error_In; eauto|].
        subst t. apply species_X; exact G.
      + intros w _. apply species_total. }
  destruct TY as (g & TY). rewrite (mapM_first_err _ _ IndexError); [reflexivity| |].
  - intros i I. apply in_seq in I. destruct (TY i) as (E & G); [lia|]. rewrite E. destruct (nth_error ws i) as [w|] eqn:EW; [left|right; reflexivity].
    destruct (G w) as (r & GR); [eapply nth_error_In; eauto|]. rewrite GR. cbn [bind].
    destruct (nth_error rows i) as [r0|] eqn:RI; [|apply nth_error_None in RI; lia]. cbn [bind].
    assert (RX : exists p, to_row r0 = Ok p). { clear - F RI. revert i RI. induction F; intros [|i] E; cbn in *; try discriminate; [inversion E; subst; eauto|eauto]. }
    destruct RX as (p & RX). rewrite RX. cbn [bind]. eauto.
  - exists (length ws). split; [apply in_seq; lia|]. destruct (TY (length ws)) as (E & _); [lia|]. rewrite E.
    rewrite (proj2 (nth_error_None ws (length ws))) by lia. reflexivity.
Qed.
Print Assumptions C48_short_list.
Theorem C48_long_list_ignored : forall now cell rest words more rows comment d mode,
  length words = length rows -> lookup "species" rest = None -> lookup "positions" rest = None ->
  dump_poscar now cell (("species", PList (map PStr (words ++ more))) :: ("positions", PList rows) :: rest) comment d mode =
  dump_poscar now cell (("species", PList (map PStr words)) :: ("positions", PList rows) :: rest) comment d mode.
Proof.
  intros now cell rest ws more rows comment d mode L _ _. unfold dump_poscar. cbv zeta. destruct (mem mode ["Direct"; "Cartesian"]); [|reflexivity]. cbn [negb].
  set (a1 := ("species", PList (map PStr (ws ++ more))) :: ("positions", PList rows) :: rest).
  set (a2 := ("species", PList (map PStr ws)) :: ("positions", PList rows) :: rest).
  change (getitem "positions" a1) with (Ok (PList rows)). change (getitem "positions" a2) with (Ok (PList rows)). cbn [bind py_len].
  assert (E : mapM (atom_entry cell a1 mode) (seq 0 (length rows)) = mapM (atom_entry cell a2 mode) (seq 0 (length rows))).
  { assert (X : forall l, (forall i, In i l -> (i < length rows)%nat) -> mapM (atom_entry cell a1 mode) l = mapM (atom_entry cell a2 mode) l).
    { induction l as [|i l IH]; intros H; [reflexivity|]. cbn [mapM]. rewrite IH by (intros; apply H; right; auto).
      replace (atom_entry cell a1 mode i) with (atom_entry cell a2 mode i); [reflexivity|].
      unfold atom_entry. change (getitem "positions" a1) with (Ok (PList rows)). change (getitem "positions" a2) with (Ok (PList rows)).
      change (lookup "species" a1) with (Some (PList (map PStr (ws ++ more)))). change (lookup "species" a2) with (Some (PList (map PStr ws))).
      cbn [subscript elements]. rewrite map_app, nth_error_app1; [reflexivity|]. rewrite map_length, L. apply H. left. reflexivity. }
    apply X. intros i I. apply in_seq in I. lia. }
  rewrite E. reflexivity.
Qed.
Print Assumptions C48_long_list_ignored.
(* Missing keys. *)
Theorem C48_missing_keys : forall now cell atoms comment d mode, In mode ["Direct"; "Cartesian"] ->
  (lookup "positions" atoms = None -> dump_poscar now cell atoms comment d mode = Err KeyError) /\
  (forall r rows, lookup "positions" atoms = Some (PList (r :: rows)) -> lookup "species" atoms = None -> lookup "names" atoms = None ->
     dump_poscar now cell atoms comment d mode = Err KeyError).
Proof.
  intros now cell atoms comment d mode M. unfold dump_poscar. cbv zeta. rewrite (proj2 (mem_true _ _) M). cbn [negb]. unfold getitem. split.
  - intros ->. reflexivity.
  - intros r rows P S N. rewrite P. cbn [bind py_len length seq mapM]. unfold atom_entry, getitem. rewrite S, N. reflexivity.
Qed.
Print Assumptions C48_missing_keys.
Theorem C48_mode : forall now cell atoms comment d mode, ~ In mode ["Direct"; "Cartesian"] -> dump_poscar now cell atoms comment d mode = Err ValueError.
Proof. intros now cell atoms comment d mode M. unfold dump_poscar. cbv zeta. rewrite (proj2 (mem_false _ _) M). reflexivity. Qed.
Print Assumptions C48_mode.
