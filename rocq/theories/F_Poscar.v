(* F_Poscar.v : facts about text, numerals and the sorted list of atoms used by P_Poscar.v *)
From Verif Require Import Base M_Strings M_Dict M_Geometry M_Atoms M_Spglib M_Primitive M_Poscar F_Strings F_Voronoi F_Atoms F_Primitive.
From Coq Require Import Sorting.Sorted Permutation DecimalString DecimalNat.
Open Scope string_scope.
Open Scope list_scope.
Open Scope R_scope.

(* ---------------- words and lines ---------------- *)
Fixpoint no_space (s : string) : Prop := match s with EmptyString => True | String c s' => is_space c = false /\ no_space s' end.
Lemma no_space_app a b : no_space (String.append a b) <-> no_space a /\ no_space b.
Proof. induction a as [|c a IH]; cbn; [tauto|]. rewrite IH. tauto. Qed.
Lemma words_space c s : is_space c = true -> words (String c s) = words s.
Proof. intros H. unfold words. cbn [pieces]. rewrite H. reflexivity. Qed.
Lemma pieces_word w c s : no_space w -> is_space c = true -> pieces (String.append w (String c s)) = w :: pieces s.
Proof.
  intros W C. induction w as [|x w IH]; cbn [String.append pieces].
  - rewrite C. reflexivity.
  - destruct W as [X W]. rewrite X, (IH W). reflexivity.
Qed.
Lemma words_word w c s : no_space w -> w <> "" -> is_space c = true -> words (String.append w (String c s)) = w :: words s.
Proof.
  intros W N C. unfold words. rewrite pieces_word by auto. cbn [filter]. destruct w; [congruence|reflexivity].
Qed.
Lemma words_spaces n s : words (String.append (spaces n) s) = words s.
Proof. induction n as [|n IH]; cbn [spaces String.append]; auto. Qed.
Definition good_word (w : string) : Prop := no_space w /\ w <> "".
Lemma words_row l : Forall (fun p => exists n, fst p = String.append (spaces n) (snd p) /\ good_word (snd p)) l ->
  words (row (map fst l)) = map snd l.
Proof.
  intros H. unfold row. induction H as [|[a b] l (n & E & G1 & G2) H IH]; cbn [map concat_str fst snd].
  - reflexivity.
  - cbn [fst snd] in *. subst a. rewrite !app_str_assoc, words_spaces.
    change (String.append " " ?x) with (String space x). rewrite words_word by auto. rewrite IH. reflexivity.
Qed.
Lemma words_plain l : Forall good_word l -> words (row l) = l.
Proof.
  intros H. pose proof (words_row (map (fun w => (w, w)) l)) as E. rewrite !map_map in E. cbn [fst snd] in E. rewrite !map_id in E. apply E.
  apply Forall_map. eapply Forall_impl; [|exact H]. intros w W. exists O. cbn. auto.
Qed.
Lemma readlines_line a s : free LF a -> readlines (String.append a (String LF s)) = String.append a (String LF "") :: readlines s.
Proof.
  induction a as [|c a IH]; intros F; cbn [String.append readlines].
  - rewrite Ascii.eqb_refl. reflexivity.
  - destruct F as [F1 F2]. rewrite (IH F2). destruct (Ascii.eqb_spec c LF); [congruence|]. reflexivity.
Qed.
Definition is_line (l : string) : Prop := exists a, free LF a /\ l = String.append a (String LF "").
Lemma readlines_concat ls : Forall is_line ls -> readlines (concat_str ls) = ls.
Proof.
  induction 1 as [|l ls (a & F & ->) H IH]; cbn [concat_str]; auto.
  rewrite app_str_assoc. cbn [String.append]. rewrite readlines_line, IH by auto. reflexivity.
Qed.
Lemma free_concat c l : Forall (free c) l -> free c (concat_str l).
Proof. induction 1; cbn [concat_str]; [exact I|]. apply free_app. auto. Qed.
Lemma row_line l : Forall (free LF) l -> is_line (row l).
Proof.
  intros H. unfold row. eexists. split; [|reflexivity]. apply free_concat. apply Forall_map. eapply Forall_impl; [|exact H].
  intros w W. apply free_app. split; auto. cbn. split; [discriminate|exact I].
Qed.
Lemma no_space_free w c : is_space c = true -> no_space w -> free c w.
Proof. intros C. induction w as [|x w IH]; cbn; auto. intros [A B]. split; auto. intros ->. congruence. Qed.
Lemma spaces_free n c : c <> space -> free c (spaces n).
Proof. intros H. induction n; cbn; auto. Qed.
Lemma replace_free s : free LF (replace_newlines s).
Proof.
  unfold replace_newlines. induction s as [|c s IH]; cbn [smap free]; auto. split; auto.
  destruct (Ascii.eqb_spec c LF); [discriminate|auto].
Qed.
Lemma universal_free s : free CR s -> universal_newlines s = s.
Proof.
  induction s as [|c s IH]; auto. intros [A B]. cbn [universal_newlines]. destruct (Ascii.eqb_spec c CR); [congruence|]. rewrite IH; auto.
Qed.

(* ---------------- numerals ---------------- *)
Fixpoint dval (acc : Z) (s : string) : Z :=
  match s with EmptyString => acc | String c s' => dval (acc * 10 + (Z.of_nat (nat_of_ascii c) - 48))%Z s' end.
Definition starts_with_digit (s : string) : bool := match s with String c _ => is_digit c | EmptyString => false end.
Lemma digit_spec c : (48 <= nat_of_ascii c <= 57)%nat -> digit_value c = Some (Z.of_nat (nat_of_ascii c) - 48)%Z.
Proof.
  intros H. unfold digit_value. replace (Nat.leb 48 (nat_of_ascii c)) with true by (symmetry; apply Nat.leb_le; lia).
  replace (Nat.leb (nat_of_ascii c) 57) with true by (symmetry; apply Nat.leb_le; lia). cbn [andb]. f_equal. lia.
Qed.
Lemma take_digits_app s rest : digits_only s -> starts_with_digit rest = false -> forall acc n,
  take_digits acc n (String.append s rest) = (dval acc s, (n + String.length s)%nat, rest).
Proof.
  intros D R. induction s as [|c s IH]; intros acc n; cbn [String.append dval String.length].
  - rewrite Nat.add_0_r. destruct rest as [|c r]; auto. cbn [take_digits]. cbn in R. unfold is_digit in R. destruct (digit_value c); [discriminate|auto].
  - destruct D as [D1 D2]. cbn [take_digits]. rewrite (digit_spec _ D1). rewrite IH by auto. f_equal. f_equal. lia.
Qed.
Lemma take_digits_all s acc n : digits_only s -> take_digits acc n s = (dval acc s, (n + String.length s)%nat, "").
Proof. intros D. rewrite <- (app_str_nil s) at 1. apply take_digits_app; auto. Qed.
Lemma dval_app a b acc : dval acc (String.append a b) = dval (dval acc a) b.
Proof. revert acc. induction a; intros; cbn; auto. Qed.
Lemma dval_uint u : forall acc, (0 <= acc)%Z -> dval acc (NilEmpty.string_of_uint u) = Z.of_nat (Nat.of_uint_acc u (Z.to_nat acc)).
Proof.
  assert (TM : forall z, (0 <= z)%Z -> Nat.tail_mul 10 (Z.to_nat z) = Z.to_nat (z * 10)).
  { intros z H. rewrite Nat.tail_mul_spec. lia. }
  induction u; intros acc H; cbn [NilEmpty.string_of_uint dval Nat.of_uint_acc]; [lia|..];
    (rewrite IHu by (cbv [nat_of_ascii]; cbn; lia)); f_equal; f_equal; rewrite TM by auto; cbn; lia.
Qed.
Lemma dval_dec n : dval 0 (dec n) = Z.of_nat n.
Proof.
  assert (E : dec n = NilEmpty.string_of_uint (Nat.to_uint n)).
  { unfold dec. pose proof (to_uint_nonnil n). destruct (Nat.to_uint n); auto. congruence. }
  rewrite E, dval_uint by lia. f_equal. change (Nat.of_uint (Nat.to_uint n) = n). apply Unsigned.of_to.
Qed.
Lemma last_digits_len k n : String.length (last_digits k n) = k.
Proof.
  revert n. induction k; intros n; cbn [last_digits]; auto.
  assert (A : forall a b, String.length (String.append a b) = (String.length a + String.length b)%nat) by (induction a; cbn; auto).
  rewrite A, IHk. cbn. lia.
Qed.
Lemma digits_app a b : digits_only (String.append a b) <-> digits_only a /\ digits_only b.
Proof. induction a; cbn; [tauto|]. rewrite IHa. tauto. Qed.
Lemma mod10 n : (0 <= n mod 10 < 10)%Z.
Proof. apply Z.mod_pos_bound. lia. Qed.
Lemma last_digits_ok k n : digits_only (last_digits k n).
Proof.
  revert n. induction k; intros n; cbn [last_digits]; [exact I|]. apply digits_app. split; auto. cbn [digits_only]. split; auto.
  pose proof (mod10 n). rewrite nat_ascii_embedding by lia. lia.
Qed.
Lemma dval_last k : forall n acc, dval acc (last_digits k n) = (acc * 10 ^ Z.of_nat k + n mod 10 ^ Z.of_nat k)%Z.
Proof.
  induction k; intros n acc.
  - cbn. rewrite Z.mod_1_r. lia.
  - cbn [last_digits]. rewrite dval_app, IHk. cbn [dval]. pose proof (mod10 n). rewrite nat_ascii_embedding by lia.
    rewrite Nat2Z.inj_succ, Z.pow_succ_r by lia. rewrite Nat2Z.inj_add, Z2Nat.id by lia.
    rewrite (Z.rem_mul_r n 10) by (try apply Z.pow_nonzero; try apply Z.pow_pos_nonneg; lia). change (Z.of_nat 48) with 48%Z. ring.
Qed.
Lemma free_drop b s : free "_"%char s -> drop_underscores b s = Some s.
Proof.
  revert b. induction s as [|c s IH]; intros b; auto. intros [A B]. cbn [drop_underscores].
  destruct (Ascii.eqb_spec c "_"%char); [congruence|]. rewrite IH; auto.
Qed.
Lemma sign_digits s : digits_only s -> take_sign s = (false, s).
Proof.
  destruct s as [|c s]; auto. intros [A _]. cbn [take_sign].
  destruct (Ascii.eqb_spec c "-"%char) as [->|]; [cbv in A; lia|]. destruct (Ascii.eqb_spec c "+"%char) as [->|]; [cbv in A; lia|]. reflexivity.
Qed.
Lemma digits_free_ s : digits_only s -> free "_"%char s.
Proof. apply digits_free. cbv. lia. Qed.
Lemma length_nonzero s : s <> "" -> Nat.eqb (String.length s) 0 = false.
Proof. destruct s; [congruence|]. reflexivity. Qed.
Lemma parse_dec n : parse_int (dec n) = Ok (Z.of_nat n).
Proof.
  pose proof (dec_digits n) as D. unfold parse_int. rewrite free_drop by (apply digits_free_; auto). rewrite sign_digits by auto.
  rewrite take_digits_all by auto. cbn [Nat.add]. rewrite length_nonzero by apply dec_nonempty. cbn [orb nonempty]. f_equal. apply dval_dec.
Qed.
Lemma sign_app_digits s rest : digits_only s -> s <> "" -> take_sign (String.append s rest) = (false, String.append s rest).
Proof.
  destruct s as [|c s]; [congruence|]. intros [A _] _. cbn [take_sign String.append].
  destruct (Ascii.eqb_spec c "-"%char) as [->|]; [cbv in A; lia|]. destruct (Ascii.eqb_spec c "+"%char) as [->|]; [cbv in A; lia|]. reflexivity.
Qed.
Lemma parse_format d x : parse_float (format_f d x) = Ok (IZR (round_half_even (x * pow10 d)) / pow10 d).
Proof.
  unfold format_f. set (r := round_half_even (x * pow10 d)). set (t := (10 ^ Z.of_nat d)%Z). cbv zeta.
  assert (T : (0 < t)%Z) by (apply Z.pow_pos_nonneg; lia).
  set (q := dec (Z.to_nat (Z.abs r / t))).
  assert (DQ : digits_only q) by apply dec_digits. assert (NQ : q <> "") by apply dec_nonempty.
  assert (VQ : dval 0 q = (Z.abs r / t)%Z) by (unfold q; rewrite dval_dec, Z2Nat.id; auto; apply Z.div_pos; lia).
  set (f := match d with O => "" | _ => String "."%char (last_digits d (Z.abs r mod t)) end).
  assert (SGN : (x < 0 -> (r <= 0)%Z) /\ (0 <= x -> (0 <= r)%Z)).
  { pose proof (round_near (x * pow10 d)) as RN. fold r in RN. assert (PP : 0 < pow10 d) by (unfold pow10; apply IZR_lt; auto).
    assert (RN2 := Rle_abs (IZR r - x * pow10 d)). assert (RN3 := Rle_abs (- (IZR r - x * pow10 d))). rewrite Rabs_Ropp in RN3. split; intros HX.
    - assert (x * pow10 d < 0) by nra. assert (IZR r < 1) by lra. apply lt_IZR in H0. lia.
    - assert (0 <= x * pow10 d) by nra. assert (-1 < IZR r) by lra. apply lt_IZR in H0. lia. }
  assert (MAIN : forall neg, take_sign (String.append (if neg : bool then "-" else "") (String.append q f)) = (neg, String.append q f)).
  { intros [|]; [reflexivity|]. exact (sign_app_digits q f DQ NQ). }
  set (neg := Rltb x 0) in *.
  assert (SR : IZR (if neg then - Z.abs r else Z.abs r) = IZR r).
  { f_equal. unfold neg. destruct (Rltb_spec x 0); destruct SGN as [S1 S2]; [pose proof (S1 r0)|pose proof (S2 ltac:(lra))]; lia. }
  unfold parse_float. rewrite free_drop.
  2:{ repeat (apply free_app; split); [unfold neg; destruct (Rltb x 0); cbn; repeat split; discriminate|apply digits_free_; auto|].
      unfold f. destruct d; [exact I|]. split; [discriminate|]. apply digits_free_, last_digits_ok. }
  rewrite MAIN. rewrite take_digits_app; auto.
  2:{ unfold f. destruct d; reflexivity. }
  rewrite VQ. unfold f. destruct d as [|d'].
  - cbn [Nat.add]. rewrite Nat.add_0_r, length_nonzero by auto. f_equal. change (pow10 0) with 1.
    replace (Z.abs r / t)%Z with (Z.abs r) by (unfold t; cbn; rewrite Z.div_1_r; auto). rewrite SR. reflexivity.
  - set (d := S d') in *. rewrite Ascii.eqb_refl. rewrite take_digits_all by apply last_digits_ok. rewrite last_digits_len, dval_last.
    cbn [Nat.add]. rewrite (proj2 (Nat.eqb_neq _ _)) by (destruct q; [congruence|cbn; lia]).
    f_equal. fold t. rewrite Z.mod_mod by lia. replace (Z.abs r / t * t + Z.abs r mod t)%Z with (Z.abs r) by (pose proof (Z.div_mod (Z.abs r) t ltac:(lia)); lia).
    rewrite SR. reflexivity.
Qed.
Lemma digits_no_space s : digits_only s -> no_space s.
Proof.
  induction s as [|c s IH]; cbn; auto. intros [A B]. split; auto. unfold is_space. set (n := nat_of_ascii c) in *.
  replace (Nat.eqb n 32) with false by (symmetry; apply Nat.eqb_neq; lia).
  replace (Nat.leb n 13) with false by (symmetry; apply Nat.leb_gt; lia). replace (Nat.leb n 31) with false by (symmetry; apply Nat.leb_gt; lia).
  rewrite !andb_false_r. reflexivity.
Qed.
Lemma format_word d x : good_word (format_f d x).
Proof.
  unfold format_f. cbv zeta. split.
  - apply no_space_app. split; [destruct (Rltb x 0); cbn; auto|]. apply no_space_app. split; [apply digits_no_space, dec_digits|].
    destruct d; [exact I|]. split; [reflexivity|]. apply digits_no_space, last_digits_ok.
  - intros E. destruct (Rltb x 0); [discriminate|]. cbn [String.append] in E. match type of E with String.append (dec ?n) _ = _ => pose proof (dec_nonempty n) end. destruct (dec _); [congruence|discriminate].
Qed.

(* ---------------- the value written into the file ---------------- *)
Definition fixed (d : nat) (x : R) : R := IZR (round_half_even (x * pow10 d)) / pow10 d.
Definition vfixed (d : nat) (v : vec) : vec := vmap (fixed d) v.
Lemma pow10_pos d : 0 < pow10 d.
Proof. unfold pow10. apply IZR_lt. apply Z.pow_pos_nonneg; lia. Qed.
Lemma fixed_near d x : Rabs (fixed d x - x) <= / 2 * / pow10 d.
Proof.
  unfold fixed. pose proof (pow10_pos d) as P. pose proof (round_near (x * pow10 d)) as N.
  replace (IZR (round_half_even (x * pow10 d)) / pow10 d - x) with ((IZR (round_half_even (x * pow10 d)) - x * pow10 d) * / pow10 d) by (field; lra).
  rewrite Rabs_mult, (Rabs_right (/ pow10 d)) by (apply Rle_ge, Rlt_le, Rinv_0_lt_compat; auto).
  apply Rmult_le_compat_r; auto. apply Rlt_le, Rinv_0_lt_compat; auto.
Qed.
Lemma fixed_grid d z : fixed d (IZR z / pow10 d) = IZR z / pow10 d.
Proof. unfold fixed. pose proof (pow10_pos d). replace (IZR z / pow10 d * pow10 d) with (IZR z) by (field; lra). rewrite round_int. reflexivity. Qed.
Lemma fixed_idem d x : fixed d (fixed d x) = fixed d x.
Proof. apply fixed_grid. Qed.
Lemma parse_vector_row d v : mapM parse_float (words (vector_row d v)) = Ok [fixed d (vx v); fixed d (vy v); fixed d (vz v)].
Proof.
  unfold vector_row. cbn [map].
  pose proof (words_row (map (fun x => (format_fixed d x, format_f d x)) [vx v; vy v; vz v])) as W. cbn [map fst snd] in W. rewrite W.
  - cbn [mapM]. rewrite !parse_format. reflexivity.
  - repeat constructor; cbn [fst snd]; unfold format_fixed; cbv zeta; eexists; (split; [reflexivity|apply format_word]).
Qed.
Lemma vector_row_words d v : length (words (vector_row d v)) = 3%nat.
Proof.
  unfold vector_row. cbn [map].
  pose proof (words_row (map (fun x => (format_fixed d x, format_f d x)) [vx v; vy v; vz v])) as W. cbn [map fst snd] in W. rewrite W; [reflexivity|].
  repeat constructor; cbn [fst snd]; unfold format_fixed; cbv zeta; eexists; (split; [reflexivity|apply format_word]).
Qed.
Lemma vector_row_free c d v : is_space c = true -> c <> space -> c <> LF -> free c (vector_row d v).
Proof.
  intros S N L. unfold vector_row, row. apply free_app. split; [|cbn; auto]. apply free_concat. apply Forall_map. apply Forall_map.
  repeat constructor; (apply free_app; split; [|cbn; split; [intros X; apply N; symmetry; exact X|exact I]]); unfold format_fixed; cbv zeta; apply free_app;
    (split; [apply spaces_free; auto|apply no_space_free; auto; apply format_word]).
Qed.
Lemma vector_row_line d v : is_line (vector_row d v).
Proof.
  unfold vector_row. apply row_line. apply Forall_map. repeat constructor; unfold format_fixed; cbv zeta; apply free_app;
    (split; [apply spaces_free; discriminate|apply no_space_free; [reflexivity|apply format_word]]).
Qed.

(* ---------------- sorting and counting ---------------- *)
Definition str_le (a b : string) : Prop := str_ltb b a = false.
Lemma str_le_refl a : str_le a a.
Proof. apply str_ltb_irrefl. Qed.
Lemma str_le_or a b : str_le a b <-> str_ltb a b = true \/ a = b.
Proof.
  unfold str_le. split; intros H.
  - destruct (string_dec a b); auto. destruct (str_ltb_total a b n); auto. congruence.
  - destruct H as [H| -> ]; [|apply str_ltb_irrefl]. destruct (str_ltb b a) eqn:E; auto.
    pose proof (str_ltb_trans _ _ _ H E) as X. rewrite str_ltb_irrefl in X. discriminate.
Qed.
Lemma str_le_trans a b c : str_le a b -> str_le b c -> str_le a c.
Proof.
  rewrite !str_le_or. intros [A| <- ] [B| <- ]; auto. left. eapply str_ltb_trans; eauto.
Qed.
Lemma str_le_antisym a b : str_le a b -> str_le b a -> a = b.
Proof. rewrite (str_le_or a b). intros [A|A] B; auto. unfold str_le in B. congruence. Qed.
Definition entry_le (x y : string * vec) : Prop := str_le (fst x) (fst y).
Lemma insert_in x l y : In y (insert_entry x l) <-> y = x \/ In y l.
Proof.
  induction l as [|z l IH]; cbn [insert_entry]; [cbn; firstorder|].
  destruct (str_ltb (fst z) (fst x)); cbn [In]; [rewrite IH|]; firstorder.
Qed.
Lemma insert_sorted x l : StronglySorted entry_le l -> StronglySorted entry_le (insert_entry x l).
Proof.
  induction 1 as [|z l H IH F]; cbn [insert_entry]; [repeat constructor|].
  destruct (str_ltb (fst z) (fst x)) eqn:E.
  - constructor; auto. apply Forall_forall. intros y Y. apply insert_in in Y. destruct Y as [->|Y].
    + apply str_le_or. auto.
    + rewrite Forall_forall in F. auto.
  - constructor; [constructor; auto|]. constructor; [exact E|]. eapply Forall_impl; [|exact F]. intros y Y. eapply str_le_trans; [exact E|exact Y].
Qed.
Lemma sort_sorted l : StronglySorted entry_le (sort_entries l).
Proof. induction l; cbn; [constructor|]. apply insert_sorted. auto. Qed.
Lemma insert_filter s x l : filter (fun y => String.eqb (fst y) s) (insert_entry x l) =
  (if String.eqb (fst x) s then [x] else []) ++ filter (fun y => String.eqb (fst y) s) l.
Proof.
  induction l as [|z l IH]; cbn [insert_entry filter]; [destruct (String.eqb (fst x) s); reflexivity|].
  destruct (str_ltb (fst z) (fst x)) eqn:E; cbn [filter].
  - rewrite IH. destruct (String.eqb_spec (fst z) s), (String.eqb_spec (fst x) s); auto.
    rewrite e, e0, str_ltb_irrefl in E. discriminate.
  - destruct (String.eqb (fst x) s); reflexivity.
Qed.
Lemma sort_filter s l : filter (fun y => String.eqb (fst y) s) (sort_entries l) = filter (fun y => String.eqb (fst y) s) l.
Proof.
  induction l as [|x l IH]; cbn [sort_entries fold_right filter]; auto. change (fold_right insert_entry [] l) with (sort_entries l).
  rewrite insert_filter, IH. destruct (String.eqb (fst x) s); reflexivity.
Qed.
Lemma sort_in l x : In x (sort_entries l) <-> In x l.
Proof.
  induction l as [|y l IH]; cbn [sort_entries fold_right]; [tauto|]. change (fold_right insert_entry [] l) with (sort_entries l).
  rewrite insert_in, IH. cbn. firstorder.
Qed.
Lemma insert_length x l : length (insert_entry x l) = S (length l).
Proof. induction l; cbn [insert_entry]; auto. destruct (str_ltb _ _); cbn [List.length]; auto. Qed.
Lemma sort_length l : length (sort_entries l) = length l.
Proof. induction l as [|x l IH]; auto. cbn [sort_entries fold_right List.length]. rewrite insert_length. f_equal. exact IH. Qed.

Definition expand (d : dict nat) : list string := concat (map (fun kv => repeat (fst kv) (snd kv)) d).
Lemma expand_app a b : expand (a ++ b) = expand a ++ expand b.
Proof. unfold expand. rewrite map_app, concat_app. reflexivity. Qed.
Definition step (d : dict nat) (x : string * vec) : dict nat :=
  match lookup (fst x) d with None => setitem (fst x) 1%nat d | Some n => setitem (fst x) (S n) d end.
Lemma setitem_last {A} k (v w : A) d : ~ In k (keys d) -> setitem k w (d ++ [(k, v)]) = d ++ [(k, w)].
Proof.
  induction d as [|[a b] d IH]; cbn [app setitem keys map fst]; intros N.
  - rewrite String.eqb_refl. reflexivity.
  - destruct (String.eqb_spec k a); [exfalso; apply N; left; auto|]. f_equal. apply IH. intros X. apply N. right. exact X.
Qed.
Lemma setitem_new {A} k (v : A) d : ~ In k (keys d) -> setitem k v d = d ++ [(k, v)].
Proof.
  induction d as [|[a b] d IH]; cbn [app setitem keys map fst]; intros N; auto.
  destruct (String.eqb_spec k a); [exfalso; apply N; left; auto|]. f_equal. apply IH. intros X. apply N. right. exact X.
Qed.
Lemma count_sorted l : StronglySorted entry_le l ->
  expand (count_species l) = map fst l /\ NoDup (keys (count_species l)) /\ incl (keys (count_species l)) (map fst l).
Proof.
  intros S. enough (X : expand (count_species l) = map fst l /\ NoDup (keys (count_species l)) /\ incl (keys (count_species l)) (map fst l) /\
    (forall d k n, count_species l = d ++ [(k, n)] -> forall y, In y (map fst l) -> str_le y k) /\ (l <> [] -> count_species l <> [])) by tauto.
  unfold count_species. change (fun (d : dict nat) (x : string * vec) => match lookup (fst x) d with None => setitem (fst x) 1%nat d | Some n => setitem (fst x) (Datatypes.S n) d end) with step.
  induction l as [|x l IH] using rev_ind.
  - cbn. repeat split; auto using NoDup_nil; try (intros y []); try tauto.
  - assert (SL : StronglySorted entry_le l /\ Forall (fun y => entry_le y x) l).
    { clear IH. induction l as [|z l IH]; [split; constructor|]. cbn [app] in S. inversion S as [|? ? S1 F1]; subst.
      destruct (IH S1) as [A B]. split; [constructor; auto|constructor; auto].
      - apply Forall_app in F1. tauto.
      - apply Forall_app in F1. destruct F1 as [_ F1]. inversion F1; auto. }
    destruct SL as [SL FX]. destruct (IH SL) as (E & N & I & L & NE). rewrite fold_left_app. cbn [fold_left]. set (d := fold_left step l []) in *.
    unfold step at 1 2 3 4 5. destruct (lookup (fst x) d) as [n|] eqn:LK.
    + assert (IK : In (fst x) (keys d)) by (apply lookup_in; eauto).
      destruct (exists_last (l := d)) as (d0 & [k m] & ED); [intros Z; rewrite Z in IK; destruct IK|].
      assert (KX : k = fst x).
      { apply str_le_antisym.
        - assert (KI : In k (map fst l)) by (apply I; rewrite ED; unfold keys; rewrite map_app; apply in_or_app; right; left; reflexivity).
          apply in_map_iff in KI. destruct KI as (y & <- & Y). rewrite Forall_forall in FX. apply FX. exact Y.
        - apply (L d0 k m ED). apply I. exact IK. }
      rewrite ED in *. subst k. unfold keys in N. rewrite map_app in N. cbn [map fst] in N. apply NoDup_remove in N. rewrite app_nil_r in N. destruct N as [N1 N2].
      fold (keys d0) in N1, N2.
      assert (m = n). { revert LK. clear - N2. induction d0 as [|[a b] d0 IH]; cbn [app lookup]; [rewrite String.eqb_refl; congruence|].
        destruct (String.eqb_spec (fst x) a); [exfalso; apply N2; left; auto|]. apply IH. intros X. apply N2. right. exact X. }
      subst m. rewrite setitem_last by auto. rewrite expand_app in *. rewrite map_app. cbn [map].
      split; [|split; [|split; [|split]]].
      * rewrite <- E, <- app_assoc. f_equal. unfold expand. cbn [map concat fst snd]. rewrite !app_nil_r. exact (repeat_cons n (fst x)).
      * unfold keys. rewrite map_app. cbn [map fst]. apply NoDup_Add with (a := fst x) (l := map fst d0); [|split; auto].
        rewrite <- (app_nil_r (map fst d0)) at 1. apply Add_app.
      * intros y Y. unfold keys in Y. rewrite map_app in Y. apply in_app_or in Y. apply in_or_app. destruct Y as [Y|Y].
        -- left. apply I. unfold keys. rewrite map_app. apply in_or_app. left. exact Y.
        -- cbn [map fst In] in Y. right. exact Y.
      * intros d1 k1 n1 Q y Y. apply app_inj_tail in Q. destruct Q as [_ Q]. inversion Q; subst. apply in_app_or in Y. destruct Y as [Y|Y].
        -- apply in_map_iff in Y. destruct Y as (z & <- & Z). rewrite Forall_forall in FX. apply FX. exact Z.
        -- destruct Y as [<-|[]]. apply str_le_refl.
      * intros _ Z. destruct d0; discriminate.
    + apply lookup_none in LK. rewrite setitem_new by auto. rewrite expand_app, map_app. cbn [map].
      split; [|split; [|split; [|split]]].
      * rewrite E. reflexivity.
      * unfold keys. rewrite map_app. cbn [map fst]. apply NoDup_Add with (a := fst x) (l := map fst d); [|split; auto].
        rewrite <- (app_nil_r (map fst d)) at 1. apply Add_app.
      * intros y Y. unfold keys in Y. rewrite map_app in Y. apply in_app_or in Y. apply in_or_app. destruct Y as [Y|Y].
        -- left. apply I. exact Y.
        -- right. exact Y.
      * intros d1 k1 n1 Q y Y. apply app_inj_tail in Q. destruct Q as [_ Q]. inversion Q; subst. apply in_app_or in Y. destruct Y as [Y|Y].
        -- apply in_map_iff in Y. destruct Y as (z & <- & Z). rewrite Forall_forall in FX. apply FX. exact Z.
        -- destruct Y as [<-|[]]. apply str_le_refl.
      * intros _ Z. destruct d; discriminate.
Qed.
Lemma species_indices_expand (d : dict nat) pre :
  map (fun i => nth_error (pre ++ keys d) i) (species_indices (map (fun kv => Z.of_nat (snd kv)) d) (length pre)) = map Some (expand d).
Proof.
  revert pre. induction d as [|[k n] d IH]; intros pre; cbn [map species_indices keys fst snd]; [reflexivity|].
  unfold expand. cbn [map concat fst snd]. rewrite !map_app. f_equal.
  - rewrite Nat2Z.id. assert (X : nth_error (pre ++ k :: map fst d) (length pre) = Some k) by (rewrite nth_error_app2, Nat.sub_diag by lia; reflexivity).
    induction n; cbn [repeat map]; [reflexivity|]. rewrite X, IHn. reflexivity.
  - specialize (IH (pre ++ [k])). rewrite <- app_assoc, app_length in IH. cbn [app List.length] in IH. rewrite Nat.add_1_r in IH. exact IH.
Qed.
