(* P_PoscarFile.v : C57 every file of the documented layout is read as the crystal it describes;
   C58 files cut at the end of a line *)
From Verif Require Import Base M_Strings M_Dict M_Geometry M_Atoms M_Spglib M_Primitive M_Poscar F_Strings F_Voronoi F_Atoms F_Primitive F_Poscar S_Poscar P_Numerals P_Poscar.
From Coq Require Import DecimalString Sorting.Sorted.
Open Scope string_scope.
Open Scope list_scope.
Open Scope R_scope.

Lemma parse_three ws v : three_numbers ws v -> mapM parse_float ws = Ok [vx v; vy v; vz v].
Proof.
  intros (a & b & c & -> & A & B & C). apply C56_numbers in A, B, C. cbn [mapM]. rewrite A, B, C. reflexivity.
Qed.
Lemma three_vec v : three [vx v; vy v; vz v] = Ok v. Proof. destruct v. reflexivity. Qed.
Lemma parse_vector l v : vector_line l v -> (do xs <- parse_floats l; three xs) = Ok v.
Proof.
  intros (ws & W & T). unfold parse_floats. rewrite (proj2 (C56_words _ _) W), (parse_three _ _ T). cbn [bind]. apply three_vec.
Qed.
Lemma parse_atom l v : atom_line l v -> (do xs <- mapM parse_float (firstn 3 (words l)); three xs) = Ok v.
Proof.
  intros (ws & more & W & T). rewrite (proj2 (C56_words _ _) W). pose proof (parse_three _ _ T) as P. destruct T as (a & b & c & -> & _).
  change (firstn 3 ([a; b; c] ++ more)) with [a; b; c]. rewrite P. cbn [bind]. apply three_vec.
Qed.
Lemma parse_counts cs ns : Forall2 (fun w n => integer_word w (Z.of_nat n)) cs ns -> mapM parse_int cs = Ok (map Z.of_nat ns) /\ existsb (fun s => negb (parses s)) cs = false.
Proof.
  induction 1 as [|w n cs ns H F [IH1 IH2]]; cbn [mapM map existsb]; auto. apply C56_integers in H. unfold parses. rewrite H, IH1. split; [reflexivity|exact IH2].
Qed.
Lemma some_name names : (exists name, In name names /\ forall z, ~ integer_word name z) -> existsb (fun s => negb (parses s)) names = true.
Proof.
  intros (name & I & N). apply existsb_exists. exists name. split; auto. unfold parses. destruct (parse_int name) as [z|] eqn:E; auto. apply C56_integers in E. destruct (N z E).
Qed.
Lemma start_char cs l : starts_with cs l -> exists c, first_char l = Ok c /\ In c cs.
Proof. intros (c & s & -> & I). exists c. auto. Qed.
Definition given_name (names : option (list string)) (i : nat) : res string :=
  match names with
  | None => Ok (String.append "X" (dec (i + 1)))
  | Some l => match nth_error l i with Some s => Ok s | None => Err IndexError end
  end.
Lemma line_app pre rest i l : nth_error rest i = Some l -> line (pre ++ rest) (length pre + i) = Ok l.
Proof. intros H. unfold line. rewrite nth_error_app2 by lia. replace (length pre + i - length pre)%nat with i by lia. rewrite H. reflexivity. Qed.
(* names of the atoms *)
Lemma indices_names given : forall names ns k, length names = length ns -> (forall i s, nth_error names i = Some s -> given_name given (k + i) = Ok s) ->
  Forall2 (fun i s => given_name given i = Ok s) (species_indices (map Z.of_nat ns) k) (names_of (combine names ns)).
Proof.
  induction names as [|s names IH]; intros [|n ns] k L G; cbn [List.length] in L; try discriminate; cbn [map species_indices combine names_of flat_map]; [constructor|].
  apply Forall2_app.
  - rewrite Nat2Z.id. specialize (G O s eq_refl). rewrite Nat.add_0_r in G. cbn [fst snd]. induction n; cbn [repeat]; constructor; auto.
  - apply IH; [lia|]. intros i s' N. specialize (G (S i) s' N). rewrite <- Nat.add_succ_comm in G. exact G.
Qed.
Lemma numbered_name (ns : list nat) i s : nth_error (map (fun i => ("X" ++ NilZero.string_of_uint (Nat.to_uint (S i)))%string) (seq 0 (length ns))) i = Some s -> given_name None i = Ok s.
Proof.
  rewrite nth_error_map. destruct (nth_error (seq 0 (length ns)) i) as [j|] eqn:E; [|discriminate]. cbn [option_map]. intros H. inversion H; subst. clear H.
  assert (L : (i < length ns)%nat) by (rewrite <- (seq_length (length ns) 0); apply nth_error_Some; congruence). rewrite (nth_error_nth' _ O) in E by (rewrite seq_length; exact L).
  rewrite seq_nth in E by exact L. inversion E; subst j. cbn [given_name]. rewrite Nat.add_1_r. reflexivity.
Qed.
(* positions of the atoms *)
Definition placed (cartesian : bool) (cell : mat) (q x : vec) : Prop := if cartesian then vmat q cell = x else q = x.
Lemma read_atoms pre la rest cell f cartesian given names is xs : 0 < f -> (cartesian = true -> det cell <> 0) ->
  Forall2 atom_line la xs -> Forall2 (fun i s => given_name given i = Ok s) is names -> length xs = length names ->
  exists qs, mapM (fun ki => read_atom (pre ++ la ++ rest) (length pre) (mscale f cell) (V3 f f f) cartesian given (fst ki) (snd ki)) (enumerate is) = Ok (combine names qs) /\ Forall2 (placed cartesian cell) qs xs.
Proof.
  intros F D A N L.
  set (q := fun x => if cartesian then vmat x (minv_total cell) else x).
  exists (map q xs). split.
  - apply mapM_of. assert (LI : length is = length xs) by (rewrite L; eapply Forall2_len; eauto).
    assert (LA : length la = length xs) by (eapply Forall2_len; eauto).
    apply Forall2_by_nth; [unfold enumerate; rewrite !combine_length, seq_length, map_length; lia|].
    intros k [k' i] [s x]. rewrite enumerate_nth. destruct (nth_error is k) as [i'|] eqn:EI; [|discriminate]. cbn [option_map]. intros E1 E2. inversion E1; subst k' i'. clear E1.
    assert (X2 : nth_error names k = Some s /\ exists x0, nth_error xs k = Some x0 /\ x = q x0).
    { clear - E2. revert names xs E2. induction k as [|k IH]; intros [|n names] [|x0 xs] E; cbn in E; try discriminate; [inversion E; subst; cbn; eauto|apply IH in E; exact E]. }
    destruct X2 as (NS & x0 & NX & ->).
    assert (GN : given_name given i = Ok s) by (clear - N EI NS; revert k EI NS; induction N; intros [|k] E1 E2; cbn in *; try discriminate; [inversion E1; inversion E2; subst; auto|eauto]).
    assert (AL : exists l, nth_error la k = Some l /\ atom_line l x0) by (clear - A NX; revert k NX; induction A; intros [|k] E; cbn in *; try discriminate; [inversion E; subst; eauto|eauto]).
    destruct AL as (l & NL & AL). unfold read_atom. cbn [fst snd]. rewrite (line_app pre (la ++ rest) k l) by (rewrite nth_error_app1; [exact NL|apply nth_error_Some; congruence]). cbn [bind].
    pose proof (parse_atom _ _ AL) as P. destruct (mapM parse_float (firstn 3 (words l))) as [ys|]; [|discriminate]. cbn [bind] in P |- *. rewrite P. cbn [bind].
    assert (C : (if cartesian then do inv <- minv (mscale f cell); Ok (vmat (vmul x0 (V3 f f f)) inv) else Ok x0) = Ok (q x0)).
    { unfold q. destruct cartesian; [|reflexivity]. assert (I : minv cell = Ok (minv_total cell)) by (apply minv_ok; split; auto).
      destruct (scale_same f cell x0 _ (Rgt_not_eq _ _ F) I) as (i2 & -> & E). cbn [bind]. rewrite E. f_equal. destruct x0 as [x1 x2 x3]. unfold vmul. cbn [vx vy vz]. rewrite !Rmult_1_r. reflexivity. }
    rewrite C. cbn [bind]. change (match given with Some l0 => match nth_error l0 i with Some s0 => Ok s0 | None => Err IndexError end | None => Ok ("X" ++ dec (i + 1))%string end) with (given_name given i). rewrite GN. reflexivity.
  - clear - D. induction xs as [|x xs IH]; cbn [map]; constructor; auto. unfold placed, q. destruct cartesian; auto. rewrite vmat_mmul, minv_l, vmat_id by auto. reflexivity.
Qed.
Lemma not_s c cs : In c cs -> In cs [["C"; "c"; "K"; "k"]; ["D"; "d"]]%char -> Ascii.eqb (lower_ascii c) "s" = false.
Proof. intros I [<-|[<-|[]]]; cbn in I; repeat destruct I as [<-|I]; try reflexivity; contradiction. Qed.

(* The lines of the file, in terms of what the program reads *)
Lemma load_body l0 l1 l2 l3 l4 sp se lm la rest p w given counts :
  has_words l1 [w] -> number_word w (file_scale p) -> 0 < file_scale p -> (file_cartesian p = true -> det (file_cell p) <> 0) -> strip_of l0 (file_comment p) ->
  vector_line l2 (row1 (file_cell p)) -> vector_line l3 (row2 (file_cell p)) -> vector_line l4 (row3 (file_cell p)) ->
  (exists l5, nth_error sp 0 = Some l5 /\
     (if existsb (fun s => negb (parses s)) (words l5) then do l <- line ([l0; l1; l2; l3; l4] ++ sp ++ se ++ [lm] ++ la ++ rest) 6; Ok (Some (words l5), words l, 7%nat) else Ok (None, words l5, 6%nat)) = Ok (given, counts, (5 + length sp)%nat)) ->
  (exists ions, mapM parse_int counts = Ok ions /\ Forall2 (fun i s => given_name given i = Ok s) (species_indices ions 0) (names_of (file_species p))) ->
  selective_lines se -> mode_line lm (file_cartesian p) -> Forall2 atom_line la (file_positions p) -> length (file_positions p) = length (names_of (file_species p)) ->
  exists qs, load_poscar ([l0; l1; l2; l3; l4] ++ sp ++ se ++ [lm] ++ la ++ rest) = Ok (mscale (file_scale p) (file_cell p), combine (names_of (file_species p)) qs, file_comment p) /\
    Forall2 (placed (file_cartesian p) (file_cell p)) qs (file_positions p).
Proof.
  intros W1 NW F D ST V1 V2 V3' (l5 & S5 & GC) (ions & PI & GN) SE MO AT LE.
  destruct (start_char _ _ MO) as (c & FC & CI).
  assert (NS : Ascii.eqb (lower_ascii c) "s" = false) by (apply (not_s c _ CI); destruct (file_cartesian p); cbn; auto).
  assert (CC : (Ascii.eqb (lower_ascii c) "c" || Ascii.eqb (lower_ascii c) "k")%bool = file_cartesian p) by (revert CI; destruct (file_cartesian p); cbn; intros CI; repeat destruct CI as [<-|CI]; try reflexivity; contradiction).
  destruct (read_atoms ([l0; l1; l2; l3; l4] ++ sp ++ se ++ [lm]) la rest (file_cell p) (file_scale p) (file_cartesian p) given _ _ _ F D AT GN LE) as (qs & RA & PL).
  exists qs. split; [|exact PL].
  set (lines := [l0; l1; l2; l3; l4] ++ sp ++ se ++ [lm] ++ la ++ rest) in *.
  assert (EL : ([l0; l1; l2; l3; l4] ++ sp ++ se ++ [lm]) ++ la ++ rest = lines) by (unfold lines; rewrite <- !app_assoc; reflexivity). rewrite EL in RA.
  unfold load_poscar. change (line lines 0) with (Ok l0). cbn [bind]. rewrite (proj2 (C56_comment _ _) ST). change (line lines 1) with (Ok l1). cbn [bind].
  assert (P1 : parse_floats l1 = Ok [file_scale p]) by (unfold parse_floats; rewrite (proj2 (C56_words _ _) W1); cbn [mapM]; apply C56_numbers in NW; rewrite NW; reflexivity).
  rewrite P1. cbn [bind]. change (firstn 3 (skipn 2 lines)) with [l2; l3; l4]. cbn [mapM]. rewrite (parse_vector _ _ V1), (parse_vector _ _ V2), (parse_vector _ _ V3'). cbn [bind].
  unfold apply_scale at 1. replace (Rltb (file_scale p) 0) with false by (symmetry; apply Rltb_false; lra). cbn [bind].
  assert (MC : M3 (row1 (file_cell p)) (row2 (file_cell p)) (row3 (file_cell p)) = file_cell p) by (destruct (file_cell p); reflexivity). rewrite MC.
  assert (L5 : line lines 5 = Ok l5) by (apply (line_app [l0; l1; l2; l3; l4] _ 0); rewrite nth_error_app1; [exact S5|destruct sp; [discriminate|cbn; lia]]). rewrite L5. cbn [bind]. cbv zeta.
  rewrite GC. cbn [bind]. rewrite PI. cbn [bind].
  assert (LS : forall i, line lines (5 + length sp + i)%nat = match nth_error (se ++ [lm] ++ la ++ rest) i with Some l => Ok l | None => Err IndexError end).
  { intros i. unfold line, lines. replace (5 + length sp + i)%nat with (length ([l0; l1; l2; l3; l4] ++ sp) + i)%nat by (rewrite app_length; cbn [List.length]; lia).
    rewrite app_assoc, nth_error_app2 by lia. replace (length ([l0; l1; l2; l3; l4] ++ sp) + i - length ([l0; l1; l2; l3; l4] ++ sp))%nat with i by lia. reflexivity. }
  replace (length ([l0; l1; l2; l3; l4] ++ sp ++ se ++ [lm])) with (S (5 + length sp + length se)) in RA by (rewrite !app_length; cbn [List.length]; lia).
  destruct SE as [|ls SL].
  - pose proof (LS O) as L0. rewrite Nat.add_0_r in L0. cbn [app nth_error] in L0. rewrite L0. cbn [bind]. rewrite FC. cbn [bind]. rewrite NS, L0. cbn [bind]. rewrite FC. cbn [bind]. rewrite CC.
    cbn [List.length] in RA. rewrite Nat.add_0_r in RA. rewrite RA. reflexivity.
  - destruct (start_char _ _ SL) as (d & FD & DI). pose proof (LS O) as L0. rewrite Nat.add_0_r in L0. cbn [app nth_error] in L0. rewrite L0. cbn [bind]. rewrite FD. cbn [bind].
    replace (Ascii.eqb (lower_ascii d) "s") with true by (destruct DI as [<-|[<-|[]]]; reflexivity).
    pose proof (LS 1%nat) as L1. rewrite Nat.add_1_r in L1. cbn [app nth_error] in L1. rewrite L1. cbn [bind]. rewrite FC. cbn [bind]. rewrite CC.
    cbn [List.length] in RA. rewrite Nat.add_1_r in RA. rewrite RA. reflexivity.
Qed.
(* Every file of the documented layout with one positive factor is read: the cell is multiplied by the factor, atoms
   get the names of their species in the order of the file, positions are relative to the cell. *)
Theorem C57_reads_documented_files : forall lines p, poscar_file lines p -> 0 < file_scale p -> (file_cartesian p = true -> det (file_cell p) <> 0) ->
  exists qs, load_poscar lines = Ok (mscale (file_scale p) (file_cell p), combine (names_of (file_species p)) qs, file_comment p) /\
    Forall2 (placed (file_cartesian p) (file_cell p)) qs (file_positions p).
Proof.
  intros lines p [l0 l1 l2 l3 l4 sp se lm la rest q w ST W1 NW V1 V2 V3' SP SE MO AT LE] F D.
  remember (file_species q) as spc eqn:EP in SP. destruct SP as [a b names cs ns HA HB CN LN SN|b names cs ns HB CN EN].
  - apply (load_body l0 l1 l2 l3 l4 [a; b] se lm la rest q w (Some names) cs); auto.
    + exists a. split; [reflexivity|]. rewrite (proj2 (C56_words _ _) HA), (some_name _ SN). cbn [app]. change (line _ 6) with (Ok b). cbn [bind]. rewrite (proj2 (C56_words _ _) HB). reflexivity.
    + destruct (parse_counts _ _ CN) as [PC _]. exists (map Z.of_nat ns). split; [exact PC|]. rewrite <- EP. apply indices_names; auto. intros i s N. cbn [given_name Nat.add]. rewrite N. reflexivity.
  - destruct (parse_counts _ _ CN) as [PC PE]. apply (load_body l0 l1 l2 l3 l4 [b] se lm la rest q w None cs); auto.
    + exists b. split; [reflexivity|]. rewrite (proj2 (C56_words _ _) HB), PE. reflexivity.
    + exists (map Z.of_nat ns). split; [exact PC|]. rewrite <- EP. apply indices_names; [rewrite EN, map_length, seq_length; reflexivity|]. intros i s N. cbn [Nat.add]. apply (numbered_name ns). rewrite <- EN. exact N.
Qed.
Print Assumptions C57_reads_documented_files.

(* ---------------- a concrete file ---------------- *)
Definition small_lines (last : string) : list string := ["a file"; "2.0"; "1 0 0"; "0 1 0"; "0 0 1"; "Fe Br"; "1 1"; "Selective dynamics"; "Cartesian"; "0 0 0 T T F"; last].
Definition small_file (z : R) : poscar := Poscar "a file" 2 (mk 1 0 0 0 1 0 0 0 1) [("Fe", 1%nat); ("Br", 1%nat)] true [V3 0 0 0; V3 0 0 z].
Lemma number_by s x : parse_float s = Ok x -> number_word s x. Proof. apply C56_numbers. Qed.
Lemma words_by s ws : words s = ws -> has_words s ws. Proof. apply C56_words. Qed.
Lemma num_int s z : parse_int s = Ok z -> integer_word s z. Proof. apply C56_integers. Qed.
Lemma num_0 : number_word "0" 0. Proof. apply number_by. replace (parse_float "0") with (Ok (0/1)) by reflexivity. f_equal. lra. Qed.
Lemma num_1 : number_word "1" 1. Proof. apply number_by. replace (parse_float "1") with (Ok (1/1)) by reflexivity. f_equal. lra. Qed.
Lemma num_2 : number_word "2.0" 2. Proof. apply number_by. replace (parse_float "2.0") with (Ok (20/10)) by reflexivity. f_equal. lra. Qed.
Lemma num_025 : number_word "0.25" (1/4). Proof. apply number_by. replace (parse_float "0.25") with (Ok (25/100)) by reflexivity. f_equal. lra. Qed.
Lemma num_02 : number_word "0.2" (1/5). Proof. apply number_by. replace (parse_float "0.2") with (Ok (2/10)) by reflexivity. f_equal. lra. Qed.
Lemma small_is_file last z : atom_line last (V3 0 0 z) -> poscar_file (small_lines last) (small_file z).
Proof.
  intros A. apply (poscar_file_intro "a file" "2.0" "1 0 0" "0 1 0" "0 0 1" ["Fe Br"; "1 1"] ["Selective dynamics"] "Cartesian" ["0 0 0 T T F"; last] [] (small_file z) "2.0").
  - apply C56_comment. reflexivity.
  - apply words_by. reflexivity.
  - apply num_2.
  - eexists. split; [apply words_by; reflexivity|]. do 3 eexists. split; [reflexivity|]. repeat split; (apply num_0 || apply num_1).
  - eexists. split; [apply words_by; reflexivity|]. do 3 eexists. split; [reflexivity|]. repeat split; (apply num_0 || apply num_1).
  - eexists. split; [apply words_by; reflexivity|]. do 3 eexists. split; [reflexivity|]. repeat split; (apply num_0 || apply num_1).
  - apply (species_named "Fe Br" "1 1" ["Fe"; "Br"] ["1"; "1"] [1%nat; 1%nat]); [apply words_by; reflexivity|apply words_by; reflexivity|repeat constructor; apply num_int; reflexivity|reflexivity|].
    exists "Fe". split; [left; reflexivity|]. intros x X. apply C56_integers in X. discriminate X.
  - constructor. do 2 eexists. split; [reflexivity|]. left. reflexivity.
  - do 2 eexists. split; [reflexivity|]. left. reflexivity.
  - constructor; [|constructor; [exact A|constructor]]. exists ["0"; "0"; "0"], ["T"; "T"; "F"]. split; [apply words_by; reflexivity|]. do 3 eexists. split; [reflexivity|]. repeat split; apply num_0.
  - reflexivity.
Qed.
Lemma small_last : atom_line "0 0 0.25" (V3 0 0 (1/4)) /\ atom_line "0 0 0.2" (V3 0 0 (1/5)).
Proof.
  split; eexists [_; _; _], []; (split; [apply words_by; reflexivity|]); do 3 eexists; (split; [reflexivity|]); repeat split; (apply num_0 || apply num_025 || apply num_02).
Qed.
Example C57_case : exists lines p, poscar_file lines p /\ 0 < file_scale p /\ det (file_cell p) <> 0 /\ file_cartesian p = true /\ length (file_positions p) = 2%nat.
Proof.
  exists (small_lines "0 0 0.25"), (small_file (1/4)). split; [apply small_is_file, small_last|]. cbn. repeat split; try lra. vunfold. lra.
Qed.

(* ================= C58 ================= *)
(* the number of lines before those of the atoms *)
Definition header_end (lines : list string) : nat :=
  let i := if existsb (fun s => negb (parses s)) (words (nth 5 lines "")) then 7%nat else 6%nat in
  match nth i lines "" with String c _ => if Ascii.eqb (lower_ascii c) "s" then S (S i) else S i | EmptyString => S i end.
Lemma line_some lines i l : line lines i = Ok l <-> nth_error lines i = Some l.
Proof. unfold line. destruct (nth_error lines i); split; congruence. Qed.
Lemma nth_of lines i l : nth_error lines i = Some l -> nth i lines "" = l.
Proof. intros E. erewrite nth_error_nth; eauto. Qed.
Lemma nth_lt {A} (l : list A) i x : nth_error l i = Some x -> (i < length l)%nat.
Proof. intros E. apply nth_error_Some. congruence. Qed.
Lemma mapM_length {A B} (f : A -> res B) l r : mapM f l = Ok r -> length r = length l.
Proof. intros H. apply mapM_ok in H. apply Forall2_len in H. auto. Qed.
Lemma same_start {A} (l l' : list A) n : (n <= length l)%nat -> (forall i, (i < n)%nat -> nth_error l' i = nth_error l i) -> firstn n l' = firstn n l.
Proof.
  revert l l'. induction n as [|n IH]; intros l l' L H; [reflexivity|]. destruct l as [|x l]; [cbn in L; lia|]. pose proof (H O ltac:(lia)) as H0. destruct l' as [|y l']; [discriminate|]. cbn in H0. inversion H0; subst.
  cbn [firstn]. f_equal. apply IH; [cbn in L; lia|]. intros i I. apply (H (S i)). lia.
Qed.
Lemma rows_start (lines : list string) : firstn 3 (skipn 2 lines) = skipn 2 (firstn 5 lines).
Proof. destruct lines as [|a [|b lines]]; reflexivity. Qed.
(* a file that can be read has all the lines of its atoms, and only these lines and those before them matter *)
Lemma load_long lines cell atoms c : load_poscar lines = Ok (cell, atoms, c) ->
  (6 <= header_end lines /\ header_end lines + length atoms <= length lines)%nat /\
  forall lines', (forall i, (i < header_end lines + length atoms)%nat -> nth_error lines' i = nth_error lines i) -> load_poscar lines' = Ok (cell, atoms, c) /\ header_end lines' = header_end lines.
Proof.
  intros H.
  assert (NA : forall ls i l, line ls i = Ok l -> nth i ls "" = l) by (intros ls i l E; apply nth_of; apply line_some; auto).
  unfold load_poscar in H. destruct (line lines 0) as [l0|] eqn:L0; [|discriminate]. cbn [bind] in H. destruct (line lines 1) as [l1|] eqn:L1; [|discriminate]. cbn [bind] in H.
  destruct (parse_floats l1) as [sc|] eqn:PF; [|discriminate]. cbn [bind] in H.
  destruct (mapM (fun l => do xs <- parse_floats l; three xs) (firstn 3 (skipn 2 lines))) as [rows|] eqn:RW; [|discriminate]. cbn [bind] in H.
  match type of H with bind ?x _ = _ => destruct x as [cell0|] eqn:CE; [|discriminate] end. cbn [bind] in H.
  destruct (apply_scale sc cell0) as [[c1 v1]|] eqn:AS; [|discriminate]. cbn [bind] in H.
  destruct (line lines 5) as [l5|] eqn:L5; [|discriminate]. cbn [bind] in H. cbv zeta in H.
  assert (LEN : (5 < length lines)%nat) by (apply line_some in L5; eapply nth_lt; eauto).
  match type of H with bind ?x _ = _ => destruct x as [[[given counts] index]|] eqn:GC; [|discriminate] end. cbn [bind] in H.
  destruct (mapM parse_int counts) as [ions|] eqn:PI; [|discriminate]. cbn [bind] in H.
  destruct (line lines index) as [li|] eqn:LI; [|discriminate]. cbn [bind] in H. destruct (first_char li) as [ci|] eqn:FI; [|discriminate]. cbn [bind] in H.
  set (k := if Ascii.eqb (lower_ascii ci) "s" then S index else index) in *.
  destruct (line lines k) as [lk|] eqn:LK; [|discriminate]. cbn [bind] in H. destruct (first_char lk) as [ck|] eqn:FK; [|discriminate]. cbn [bind] in H.
  match type of H with bind ?x _ = _ => destruct x as [ats|] eqn:ME; [|discriminate] end. cbn [bind] in H. inversion H; subst c1 ats c. clear H.
  assert (IX : (6 <= index /\ (existsb (fun s => negb (parses s)) (words l5) = true -> index = 7))%nat).
  { destruct (existsb _ (words l5)); [destruct (line lines 6); [|discriminate]; cbn [bind] in GC|]; inversion GC; subst index; split; auto; discriminate. }
  assert (KX : (index <= k)%nat) by (unfold k; destruct (Ascii.eqb _ _); lia).
  assert (HE : forall ls, nth 5 ls "" = l5 -> nth index ls "" = li -> header_end ls = S k).
  { intros ls N5 NI. unfold header_end. cbv zeta. rewrite N5. destruct li as [|ci' li]; [discriminate FI|]. cbn in FI. inversion FI; subst ci'. 
    destruct (existsb _ (words l5)); [destruct (line lines 6); [|discriminate]; cbn [bind] in GC|]; inversion GC; subst index; rewrite NI; unfold k; destruct (Ascii.eqb _ _); reflexivity. }
  assert (HL : header_end lines = S k) by (apply HE; apply NA; auto). rewrite HL. pose proof (mapM_length _ _ _ ME) as ML.
  split.
  - split; [lia|]. apply line_some in LK. apply nth_lt in LK. destruct (length atoms) as [|n] eqn:EN; [lia|].
    assert (X : exists i, nth_error (enumerate (species_indices ions 0)) n = Some (n, i)).
    { rewrite enumerate_nth. destruct (nth_error (species_indices ions 0) n) as [i|] eqn:E; [exists i; reflexivity|]. apply nth_error_None in E. unfold enumerate in ML. rewrite combine_length, seq_length in ML. lia. }
    destruct X as (i & X). apply mapM_ok in ME.
    assert (R : exists b, read_atom lines (S k) cell v1 (Ascii.eqb (lower_ascii ck) "c" || Ascii.eqb (lower_ascii ck) "k") given n i = Ok b).
    { assert (G : forall m x, nth_error (enumerate (species_indices ions 0)) m = Some x -> exists b, read_atom lines (S k) cell v1 (Ascii.eqb (lower_ascii ck) "c" || Ascii.eqb (lower_ascii ck) "k") given (fst x) (snd x) = Ok b).
      { clear - ME. induction ME; intros [|m] y0 Y; cbn in Y; try discriminate; [inversion Y; subst; eauto|eauto]. }
      apply (G n (n, i) X). }
    destruct R as (b & R). unfold read_atom in R. destruct (line lines (S k + n)) as [la|] eqn:LL; [|discriminate]. apply line_some in LL. apply nth_lt in LL. lia.
  - intros lines' SAME.
    assert (LA : forall i l, line lines i = Ok l -> (i < S k + length atoms)%nat -> line lines' i = Ok l).
    { intros i l E I. apply line_some in E. apply line_some. rewrite SAME; auto. }
    split; [|rewrite (HE lines'); [reflexivity| |]; apply NA; apply LA; auto; lia].
    unfold load_poscar. rewrite (LA _ _ L0) by lia. cbn [bind]. rewrite (LA _ _ L1) by lia. cbn [bind]. rewrite PF. cbn [bind].
    rewrite rows_start, (same_start lines lines' 5), <- rows_start by (lia || (intros; apply SAME; lia)).
    rewrite RW. cbn [bind]. rewrite CE. cbn [bind]. rewrite AS. cbn [bind]. rewrite (LA _ _ L5) by lia. cbn [bind]. cbv zeta.
    assert (GC' : (if existsb (fun s => negb (parses s)) (words l5) then do l <- line lines' 6; Ok (Some (words l5), words l, 7%nat) else Ok (None, words l5, 6%nat)) = Ok (given, counts, index)).
    { destruct (existsb _ (words l5)); [|exact GC]. destruct IX as [_ IX]. specialize (IX eq_refl). destruct (line lines 6) as [l6|] eqn:L6; [|discriminate]. rewrite (LA _ _ L6) by lia. exact GC. }
    rewrite GC'. cbn [bind]. rewrite PI. cbn [bind]. rewrite (LA _ _ LI) by lia. cbn [bind]. rewrite FI. cbn [bind]. fold k. rewrite (LA _ _ LK) by lia. cbn [bind]. rewrite FK. cbn [bind].
    replace (mapM _ (enumerate (species_indices ions 0))) with (Ok (A := list (string * vec)) atoms); [reflexivity|]. symmetry. apply mapM_of. apply mapM_ok in ME.
    apply Forall2_by_nth; [eapply Forall2_len; eauto|]. intros m [a b] x NM NX.
    assert (AM : a = m) by (rewrite enumerate_nth in NM; destruct (nth_error (species_indices ions 0) m); [inversion NM; reflexivity|discriminate]). subst a.
    assert (R : read_atom lines (S k) cell v1 (Ascii.eqb (lower_ascii ck) "c" || Ascii.eqb (lower_ascii ck) "k") given m b = Ok x).
    { assert (G : forall j y z, nth_error (enumerate (species_indices ions 0)) j = Some y -> nth_error atoms j = Some z -> read_atom lines (S k) cell v1 (Ascii.eqb (lower_ascii ck) "c" || Ascii.eqb (lower_ascii ck) "k") given (fst y) (snd y) = Ok z).
      { clear - ME. induction ME; intros [|j] y' z' Y Z; cbn in Y, Z; try discriminate; [inversion Y; inversion Z; subst; auto|eauto]. }
      apply (G m (m, b) x NM NX). }
    cbn [fst snd]. revert R. unfold read_atom. destruct (line lines (S k + m)) as [la|] eqn:LL; [|discriminate]. rewrite (LA _ _ LL); [auto|]. apply nth_lt in NX. lia.
Qed.
(* A file that can be read never needs the lines after its last atom, and a file that lost one or more of the
   needed lines at its end is never read as a crystal. *)
Theorem C58_cut_between_lines : forall lines cell atoms c, load_poscar lines = Ok (cell, atoms, c) ->
  exists n, (6 + length atoms <= n <= length lines)%nat /\ load_poscar (firstn n lines) = Ok (cell, atoms, c) /\
    (forall more, load_poscar (firstn n lines ++ more) = Ok (cell, atoms, c)) /\
    forall k, (k < n)%nat -> forall r, load_poscar (firstn k lines) <> Ok r.
Proof.
  intros lines cell atoms c H. destruct (load_long _ _ _ _ H) as ((L6 & L) & SAME). set (n := (header_end lines + length atoms)%nat) in *. exists n.
  assert (FN : forall i, (i < n)%nat -> nth_error (firstn n lines) i = nth_error lines i).
  { intros i I. rewrite <- (firstn_skipn n lines) at 2. rewrite nth_error_app1; [reflexivity|]. rewrite firstn_length. lia. }
  split; [lia|]. split; [apply SAME; exact FN|]. split.
  - intros more. apply SAME. intros i I. rewrite nth_error_app1; [apply FN; exact I|]. rewrite firstn_length. lia.
  - intros k K [[cell' atoms'] c'] H'. destruct (load_long _ _ _ _ H') as ((_ & L') & E'). destruct (E' lines) as (E1 & E2).
    { intros i I. rewrite <- (firstn_skipn k lines) at 1. rewrite nth_error_app1 by lia. reflexivity. }
    rewrite H in E1. inversion E1; subst. rewrite <- E2 in L'. rewrite firstn_length in L'. fold n in L'. lia.
Qed.
Print Assumptions C58_cut_between_lines.
Example C58_case : exists cell atoms c, load_poscar (small_lines "0 0 0.25") = Ok (cell, atoms, c) /\ length atoms = 2%nat.
Proof.
  destruct (C57_reads_documented_files _ _ (small_is_file _ _ (proj1 small_last))) as (qs & E & P); [cbn; lra|cbn; intros _; vunfold; lra|].
  do 3 eexists. split; [exact E|]. apply Forall2_len in P. rewrite combine_length. cbn in P |- *. rewrite P. reflexivity.
Qed.
(* But a text cut inside its last line can be read as another crystal. *)
Theorem C58_cut_in_a_line_refuted : exists text cut cell atoms atoms' c, text = String.append cut "5" /\
  load_poscar (readlines text) = Ok (cell, atoms, c) /\ load_poscar (readlines cut) = Ok (cell, atoms', c) /\ atoms' <> atoms.
Proof.
  set (t := fun last => concat_str (map (fun l => String.append l (String LF "")) (removelast (small_lines last)) ++ [last])).
  assert (SF : forall last z, atom_line last (V3 0 0 z) -> poscar_file (map (fun l => String.append l (String LF "")) (removelast (small_lines last)) ++ [last]) (small_file z)).
  { intros last z A. cbn [small_lines removelast map app].
    apply (poscar_file_intro _ _ _ _ _ [String.append "Fe Br" (String LF ""); String.append "1 1" (String LF "")] [String.append "Selective dynamics" (String LF "")] (String.append "Cartesian" (String LF "")) [String.append "0 0 0 T T F" (String LF ""); last] [] (small_file z) "2.0").
    - apply C56_comment. reflexivity.
    - apply words_by. reflexivity.
    - apply num_2.
    - eexists. split; [apply words_by; reflexivity|]. do 3 eexists. split; [reflexivity|]. repeat split; (apply num_0 || apply num_1).
    - eexists. split; [apply words_by; reflexivity|]. do 3 eexists. split; [reflexivity|]. repeat split; (apply num_0 || apply num_1).
    - eexists. split; [apply words_by; reflexivity|]. do 3 eexists. split; [reflexivity|]. repeat split; (apply num_0 || apply num_1).
    - apply (species_named _ _ ["Fe"; "Br"] ["1"; "1"] [1%nat; 1%nat]); [apply words_by; reflexivity|apply words_by; reflexivity|repeat constructor; apply num_int; reflexivity|reflexivity|].
      exists "Fe". split; [left; reflexivity|]. intros x X. apply C56_integers in X. discriminate X.
    - constructor. do 2 eexists. split; [reflexivity|]. left. reflexivity.
    - do 2 eexists. split; [reflexivity|]. left. reflexivity.
    - constructor; [|constructor; [exact A|constructor]]. exists ["0"; "0"; "0"], ["T"; "T"; "F"]. split; [apply words_by; reflexivity|]. do 3 eexists. split; [reflexivity|]. repeat split; apply num_0.
    - reflexivity. }
  destruct small_last as [A1 A2].
  destruct (C57_reads_documented_files _ _ (SF _ _ A1)) as (q1 & E1 & P1); [cbn; lra|cbn; intros _; vunfold; lra|].
  destruct (C57_reads_documented_files _ _ (SF _ _ A2)) as (q2 & E2 & P2); [cbn; lra|cbn; intros _; vunfold; lra|].
  exists (t "0 0 0.25"), (t "0 0 0.2"). do 4 eexists. split; [reflexivity|]. split; [|split].
  - replace (readlines (t "0 0 0.25")) with (map (fun l => String.append l (String LF "")) (removelast (small_lines "0 0 0.25")) ++ ["0 0 0.25"]) by reflexivity. exact E1.
  - replace (readlines (t "0 0 0.2")) with (map (fun l => String.append l (String LF "")) (removelast (small_lines "0 0 0.2")) ++ ["0 0 0.2"]) by reflexivity. exact E2.
  - inversion P1 as [|a1 b1 r1 s1 H1 P1']; subst. inversion P1' as [|a2 b2 r2 s2 H2 P1'']; subst. inversion P1''; subst.
    inversion P2 as [|a3 b3 r3 s3 H3 P2']; subst. inversion P2' as [|a4 b4 r4 s4 H4 P2'']; subst. inversion P2''; subst.
    cbn [small_file names_of file_species flat_map repeat fst snd app combine]. intros X. inversion X; subst. unfold placed in H2, H4. cbn [small_file file_cartesian file_cell] in H2, H4. rewrite H2 in H4. inversion H4. lra.
Qed.
Print Assumptions C58_cut_in_a_line_refuted.

(* ================= C57: writing ================= *)
Lemma vector_row_is d v : vector_line (vector_row d v) (vfixed d v).
Proof.
  pose proof (parse_vector_row d v) as P. pose proof (vector_row_words d v) as L. exists (words (vector_row d v)). split; [apply C56_words; reflexivity|].
  destruct (words (vector_row d v)) as [|a [|b [|c [|? ?]]]]; try discriminate L. cbn [mapM] in P.
  destruct (parse_float a) as [x|] eqn:A; [|discriminate]. destruct (parse_float b) as [y|] eqn:B; [|discriminate]. destruct (parse_float c) as [z|] eqn:C; [|discriminate].
  cbn [bind] in P. inversion P; subst. exists a, b, c. split; [reflexivity|]. repeat split; apply C56_numbers; assumption.
Qed.
Lemma expand_names d : expand d = names_of d.
Proof. unfold expand, names_of. rewrite flat_map_concat_map. reflexivity. Qed.
Lemma combine_split_dict (d : dict nat) : combine (keys d) (map snd d) = d.
Proof. induction d as [|[k v] d IH]; cbn [keys map combine fst snd]; auto. unfold keys in IH. rewrite IH. reflexivity. Qed.
Lemma poscar_lines_file d cell mode comment s : StronglySorted entry_le s -> entry_good s -> s <> [] -> In mode ["Direct"; "Cartesian"] ->
  poscar_file (poscar_lines d cell mode comment s) (Poscar (strip comment) 1 (mfixed d cell) (count_species s) (String.eqb mode "Cartesian") (map (fun x => vfixed d (snd x)) s)).
Proof.
  intros S G NE M. pose proof (keys_good s S G) as KG. destruct (count_sorted s S) as (EX & ND & IN).
  set (p := Poscar _ _ _ _ _ _).
  pose proof (poscar_file_intro (String.append comment (String LF "")) (String.append "1.0" (String LF "")) (vector_row d (row1 cell)) (vector_row d (row2 cell)) (vector_row d (row3 cell))
    [row (keys (count_species s)); row (map (fun kv => dec (snd kv)) (count_species s))] [] (String.append mode (String LF "")) (map (fun x => vector_row d (snd x)) s) [] p "1.0") as F.
  rewrite app_nil_r in F. apply F; clear F; unfold p; cbn [file_comment file_scale file_cell file_species file_cartesian file_positions mfixed row1 row2 row3]; try apply vector_row_is.
  - apply C56_comment. apply strip_newline.
  - apply C56_words. reflexivity.
  - apply C56_numbers. replace (parse_float "1.0") with (Ok (10 / 10)) by reflexivity. f_equal. lra.
  - rewrite <- (combine_split_dict (count_species s)) at 3. apply (species_named _ _ _ (map (fun kv => dec (snd kv)) (count_species s))).
    + apply C56_words. apply words_plain. eapply Forall_impl; [|exact KG]. intros k K. apply species_no_space; auto.
    + apply C56_words. apply words_plain. apply Forall_map. apply Forall_forall. intros x _. apply dec_word.
    + generalize (count_species s). clear. intros l. induction l as [|x l IH]; cbn [map]; constructor; auto. apply C56_integers. apply parse_dec.
    + unfold keys. rewrite !map_length. reflexivity.
    + destruct (count_species s) as [|[k n] r] eqn:CS.
      * destruct s as [|x s]; [congruence|]. unfold expand in EX. cbn in EX. discriminate.
      * exists k. split; [left; reflexivity|]. intros z Z. apply C56_integers in Z. cbn [keys map fst] in KG. inversion KG as [|? ? K1 K2]; subst. apply species_not_int in K1. unfold parses in K1. rewrite Z in K1. discriminate.
  - constructor.
  - destruct M as [<-|[<-|[]]]; do 2 eexists; (split; [reflexivity|]); left; reflexivity.
  - clear. induction s as [|x s IH]; cbn [map]; constructor; auto. destruct (vector_row_is d (snd x)) as (ws & W & T). exists ws, []. rewrite app_nil_r. auto.
  - rewrite <- expand_names, EX, !map_length. reflexivity.
Qed.
(* The written text has the documented layout, whatever program reads it *)
Theorem C57_writes_documented_files : forall now cell atoms l comment d mode,
  describes atoms l -> l <> [] -> Forall (fun x => species_word (fst x)) l -> free LF now -> In mode ["Direct"; "Cartesian"] ->
  exists text p, dump_poscar now cell atoms comment (Z.of_nat d) mode = Ok text /\ poscar_file (readlines text) p /\
    file_comment p = strip (comment_text now comment) /\ file_scale p = 1 /\ written_mat d cell (file_cell p) /\ (file_cartesian p = true <-> mode = "Cartesian") /\
    NoDup (map fst (file_species p)) /\ (forall x, In x (file_species p) -> (0 < snd x)%nat) /\
    let file := combine (names_of (file_species p)) (file_positions p) in
    length file = length l /\ alphabetical file /\
    forall s, Forall2 (written_vec d) (map (fun x => if String.eqb mode "Direct" then x else vmat x cell) (of_species s l)) (of_species s file).
Proof.
  intros now cell atoms l comment d mode D NE G NF M. set (s := sort_entries (entries mode cell l)).
  assert (SS : StronglySorted entry_le s) by apply sort_sorted. assert (EG : entry_good s) by (apply entries_sorted_good; auto).
  assert (LEN : length s = length l) by (unfold s; rewrite sort_length; unfold entries; apply map_length).
  assert (NS : s <> []) by (intros E; rewrite E in LEN; destruct l; [congruence|discriminate]).
  assert (CF : free LF (comment_text now comment)) by (destruct comment; [apply replace_free|exact NF]).
  pose proof (poscar_lines_file d cell mode (comment_text now comment) s SS EG NS M) as PF. set (p := Poscar _ _ _ _ _ _) in PF.
  destruct (count_sorted s SS) as (EX & ND & IN).
  assert (FE : combine (names_of (file_species p)) (file_positions p) = map (fun x => (fst x, vfixed d (snd x))) s).
  { unfold p. cbn [file_species file_positions]. rewrite <- expand_names, EX. clear. induction s as [|x s IH]; cbn [map combine]; congruence. }
  exists (concat_str (poscar_lines d cell mode (comment_text now comment) s)), p. split; [apply dump_text; auto|]. split; [rewrite readlines_concat by (apply lines_ok; auto); exact PF|].
  split; [reflexivity|]. split; [reflexivity|]. split; [repeat split; apply vfixed_written|]. split.
  { unfold p. cbn [file_cartesian]. apply String.eqb_eq. }
  split; [exact ND|]. split.
  { intros x X. unfold p in X. cbn [file_species] in X. clear - X. unfold count_species in X.
    assert (H : forall ls dd, (forall y, In y dd -> (0 < snd y)%nat) -> forall y, In y (fold_left (fun dd (x : string * vec) => match lookup (fst x) dd with None => setitem (fst x) 1%nat dd | Some n => setitem (fst x) (S n) dd end) ls dd) -> (0 < snd y)%nat).
    { induction ls as [|z ls IH]; intros dd H y Y; cbn [fold_left] in Y; auto. eapply IH; [|exact Y]. intros w W.
      assert (SET : forall k v (e : dict nat) w, In w (setitem k v e) -> snd w = v \/ In w e).
      { clear. intros k v e w. induction e as [|[a b] e IH]; cbn [setitem]; [intros [<-|[]]; auto|]. destruct (String.eqb k a); intros [<-|W]; auto; [right; right; exact W|right; left; reflexivity|]. destruct (IH W); auto. right; right; auto. }
      destruct (lookup (fst z) dd); apply SET in W; destruct W as [->|W]; auto; lia. }
    eapply H; [|exact X]. intros y []. }
  cbv zeta. rewrite FE. split; [rewrite map_length; exact LEN|]. split; [apply (map_fst_sorted (fun x => vfixed d (snd x))); exact SS|].
  intros sp. unfold s. rewrite of_species_sorted. clear. induction (of_species sp l) as [|x m IH]; cbn [map]; constructor; auto. apply vfixed_written.
Qed.
Print Assumptions C57_writes_documented_files.
Example C57_writes_case : let atoms := [("names", PList [PStr "Fe1"; PStr "Br2"; PStr "Fe3"]);
     ("positions", PList [PList [PFloat (1/2); PInt 0; PInt 0]; PList [PInt 0; PInt 0; PInt 0]; PList [PInt 0; PFloat (1/4); PInt 0]])] in
  exists l, describes atoms l /\ l <> [] /\ Forall (fun x => species_word (fst x)) l.
Proof.
  intros atoms. exists [("Fe", V3 (1/2) 0 0); ("Br", V3 0 0 0); ("Fe", V3 0 (1/4) 0)]. split; [|split; [discriminate|]].
  - split; [eexists; split; [reflexivity|repeat constructor]|]. right. split; [reflexivity|]. exists ["Fe1"; "Br2"; "Fe3"]. split; [reflexivity|]. repeat constructor.
  - assert (W : forall a b, letter a -> letter b -> is_space a = false -> is_space b = false -> species_word (String a (String b ""))).
    { intros a b A B SA SB. split; [eauto|]. intros c [<-|[<-|[]]]; auto. }
    repeat constructor; cbn [fst]; apply W; try reflexivity; unfold letter; cbv; lia.
Qed.
(* The fields of the numbers: aligned to the right in a column, with all the decimals asked for *)
Theorem C57_fields : forall d x, exists pad sgn whole fraction, format_fixed d x = (pad ++ sgn ++ whole ++ fraction)%string /\
  (forall c, In c (list_ascii_of_string pad) -> c = " "%char) /\ (sgn = "-" <-> x < 0) /\ (sgn = "" <-> 0 <= x) /\
  (exists v n, digits whole v n) /\ (d = O /\ fraction = "" \/ exists t w, fraction = String "." t /\ digits t w d) /\
  String.length (format_fixed d x) = Nat.max (d + 5) (String.length (sgn ++ whole ++ fraction)).
Proof.
  intros d x. unfold format_fixed, format_f. set (r := round_half_even (x * pow10 d)). cbv zeta. set (t := (10 ^ Z.of_nat d)%Z).
  set (sgn := if Rltb x 0 then "-" else ""). set (whole := dec (Z.to_nat (Z.abs r / t))). set (fr := match d with O => "" | _ => String "." (last_digits d (Z.abs r mod t)) end).
  set (n := (d + 5 - String.length (sgn ++ whole ++ fr))%nat). exists (spaces n), sgn, whole, fr. split; [reflexivity|].
  assert (DG : forall s, digits_only s -> s <> "" -> exists v, digits s v (String.length s)).
  { clear. induction s as [|c s IH]; [intros _ N; congruence|]. intros [D1 D2] N. assert (DC : exists k, digit c k) by (eexists; apply P_Numerals.digit_spec; apply F_Poscar.digit_spec; exact D1). destruct DC as (k & DC).
    destruct s as [|c2 s]; [exists k; constructor; exact DC|]. destruct IH as (v & V); [exact D2|discriminate|]. eexists. apply digits_next; eauto. }
  split; [|split; [|split; [|split; [|split]]]].
  - induction n as [|m IH]; cbn [spaces list_ascii_of_string]; [intros c []|]. intros c [<-|C]; auto.
  - unfold sgn. destruct (Rltb_spec x 0); split; auto; try discriminate. intros H. lra.
  - unfold sgn. destruct (Rltb_spec x 0); split; auto; try discriminate; try (intros; lra).
  - destruct (DG whole) as (v & V); [apply dec_digits|apply dec_nonempty|eauto].
  - destruct d as [|d']; [left; auto|]. right. set (q := last_digits (S d') (Z.abs r mod t)). exists q.
    assert (QL : String.length q = S d') by apply last_digits_len. destruct (DG q) as (v & V); [apply last_digits_ok|intros E; rewrite E in QL; discriminate|]. exists v. split; [reflexivity|]. rewrite QL in V. exact V.
  - assert (LA : forall a b, String.length (a ++ b) = (String.length a + String.length b)%nat) by (clear; induction a; intros b; cbn [String.append String.length]; auto; rewrite IHa; reflexivity).
    assert (LS : forall m, String.length (spaces m) = m) by (induction m; cbn; auto). rewrite LA, LS. unfold n. lia.
Qed.
Print Assumptions C57_fields.
