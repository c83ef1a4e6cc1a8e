(* P_Numerals.v : C56, how the numbers and the words of a POSCAR file are read *)
From Verif Require Import Base M_Strings M_Dict M_Atoms M_Poscar F_Strings F_Atoms F_Poscar S_Poscar.
Open Scope string_scope.
Open Scope list_scope.
Open Scope R_scope.

(* ---------------- digits ---------------- *)
Lemma digit_spec c k : digit c k <-> digit_value c = Some k.
Proof.
  split.
  - intros H. cbn in H. repeat destruct H as [H|H]; try (inversion H; subst; reflexivity).
  - destruct c as [[] [] [] [] [] [] [] []]; cbv; intros H; try discriminate; inversion H; tauto.
Qed.
Lemma digit_not_under c k : digit c k -> Ascii.eqb c "_" = false /\ is_digit c = true.
Proof. intros D. apply digit_spec in D. unfold is_digit. rewrite D. split; [|reflexivity]. destruct (Ascii.eqb_spec c "_"); auto. subst. discriminate D. Qed.
Lemma app_nil_s s : (s ++ "")%string = s. Proof. induction s; cbn; congruence. Qed.
Lemma app_assoc_s a b c : ((a ++ b) ++ c)%string = (a ++ (b ++ c))%string. Proof. induction a; cbn; congruence. Qed.
Definition no_digit (s : string) : Prop := match s with String c _ => digit_value c = None | _ => True end.
Lemma take_stop acc k r : no_digit r -> take_digits acc k r = (acc, k, r).
Proof. destruct r as [|c r]; cbn; auto. intros ->. reflexivity. Qed.
Lemma digits_start s v n : digits s v n -> exists c s' k, s = String c s' /\ digit c k.
Proof. intros []; eauto. Qed.
Lemma read_digits s v n : digits s v n -> forall b t r, drop_underscores true t = Some r ->
  exists s', drop_underscores b (s ++ t) = Some (s' ++ r)%string /\
    (exists c s'' k, s' = String c s'' /\ digit c k) /\
    forall acc k, take_digits acc k (s' ++ r) = take_digits (acc * 10 ^ Z.of_nat n + v)%Z (k + n) r.
Proof.
  induction 1 as [c k D|c k s v n D H IH|c k s v n D H IH]; intros b t r R; destruct (digit_not_under _ _ D) as [U I].
  - exists (String c ""). cbn [String.append drop_underscores]. rewrite U, I, R. split; [reflexivity|]. split; [eauto|]. intros acc m. cbn [take_digits].
    apply digit_spec in D. rewrite D. rewrite Nat.add_1_r. f_equal; lia.
  - destruct (IH true t r R) as (s' & E & _ & T). exists (String c s'). cbn [String.append drop_underscores]. rewrite U, I, E. split; [reflexivity|]. split; [eauto|].
    intros acc m. cbn [take_digits]. apply digit_spec in D. rewrite D, T. f_equal; [|lia]. rewrite Nat2Z.inj_succ, Z.pow_succ_r by lia. lia.
  - destruct (IH false t r R) as (s' & E & _ & T). exists (String c s'). cbn [String.append]. cbn [drop_underscores]. rewrite U, I. change (Ascii.eqb "_" "_") with true. cbv iota.
    destruct (digits_start _ _ _ H) as (c2 & s2 & k2 & -> & D2). cbn [String.append] in E |- *. rewrite (proj2 (digit_not_under _ _ D2)). cbn [andb]. cbv iota. rewrite E. split; [reflexivity|]. split; [eauto|].
    intros acc m. cbn [take_digits]. apply digit_spec in D. rewrite D, T. f_equal; [|lia]. rewrite Nat2Z.inj_succ, Z.pow_succ_r by lia. lia.
Qed.
Lemma under_any b b' s : (forall s', s <> String "_" s') -> drop_underscores b s = drop_underscores b' s.
Proof. destruct s as [|c s]; intros H; cbn [drop_underscores]; auto. destruct (Ascii.eqb_spec c "_") as [->|]; auto. exfalso. apply (H s). reflexivity. Qed.
Lemma under_next s r : drop_underscores true s = Some r -> no_digit r -> forall s', s <> String "_" s'.
Proof.
  intros U N s' ->. cbn [drop_underscores] in U. change (Ascii.eqb "_" "_") with true in U. cbv iota in U. destruct s' as [|c s']; [discriminate|].
  cbn [andb] in U. destruct (is_digit c) eqn:I; [|discriminate]. cbn [drop_underscores] in U. destruct (Ascii.eqb_spec c "_") as [->|]; [discriminate I|].
  destruct (drop_underscores (is_digit c) s') as [q|]; [|discriminate]. inversion U; subst. cbn in N. unfold is_digit in I. rewrite N in I. discriminate.
Qed.
(* the other direction *)
Lemma digits_found : forall m s r acc k a j r2, (String.length s <= m)%nat -> drop_underscores false s = Some r -> take_digits acc k r = (a, j, r2) ->
  no_digit r2 /\
  (j = k /\ a = acc /\ r2 = r /\ no_digit r \/
   exists s1 s2 v n, s = (s1 ++ s2)%string /\ digits s1 v n /\ j = (k + n)%nat /\ a = (acc * 10 ^ Z.of_nat n + v)%Z /\ drop_underscores true s2 = Some r2 /\ drop_underscores false s2 = Some r2).
Proof.
  induction m as [|m IH]; intros s r acc k a j r2 L U T.
  { destruct s; [|cbn in L; lia]. cbn in U. inversion U; subst. cbn in T. inversion T; subst. split; [exact Logic.I|left; repeat split]. }
  destruct s as [|c s]; cbn [drop_underscores] in U. { inversion U; subst. cbn in T. inversion T; subst. split; [exact Logic.I|left; repeat split]. }
  destruct (Ascii.eqb_spec c "_") as [->|NU]. { destruct s; discriminate. }
  destruct (drop_underscores (is_digit c) s) as [r'|] eqn:U'; [|discriminate]. inversion U; subst r. clear U. cbn [take_digits] in T. destruct (digit_value c) as [d|] eqn:DV.
  2:{ inversion T; subst. split; [exact DV|left; repeat split; exact DV]. }
  assert (I : is_digit c = true) by (unfold is_digit; rewrite DV; reflexivity). rewrite I in U'. cbn [String.length] in L.
  destruct s as [|c2 s2].
  { cbn in U'. inversion U'; subst r'. cbn in T. inversion T; subst. split; [exact Logic.I|]. right. exists (String c ""), "", d, 1%nat. split; [reflexivity|]. split; [constructor; apply digit_spec; exact DV|].
    split; [lia|]. split; [lia|]. split; reflexivity. }
  destruct (Ascii.eqb_spec c2 "_") as [->|N2].
  - cbn [drop_underscores] in U'. change (Ascii.eqb "_" "_") with true in U'. cbv iota in U'. destruct s2 as [|c3 s3]; [discriminate|]. cbn [andb] in U'. destruct (is_digit c3) eqn:I3; [|discriminate].
    cbn [String.length] in L. assert (L' : (String.length (String c3 s3) <= m)%nat) by (cbn [String.length]; lia).
    destruct (IH _ _ _ _ _ _ _ L' U' T) as (N & [(J & A & R2 & ND)|(s1 & t2 & v & n & E & D & J & A & V1 & V2)]).
    + exfalso. cbn [drop_underscores] in U'. destruct (Ascii.eqb_spec c3 "_") as [->|]; [discriminate I3|]. destruct (drop_underscores (is_digit c3) s3); [|discriminate]. inversion U'; subst. cbn in ND. unfold is_digit in I3. rewrite ND in I3. discriminate.
    + split; auto. right. exists (String c (String "_" s1)), t2, (d * 10 ^ Z.of_nat n + v)%Z, (S n). split; [rewrite E; reflexivity|]. split; [apply digits_under; [apply digit_spec; exact DV|exact D]|].
      split; [lia|]. split; [rewrite A, Nat2Z.inj_succ, Z.pow_succ_r by lia; lia|]. auto.
  - rewrite (under_any true false) in U' by (intros s' E; inversion E; congruence).
    assert (L' : (String.length (String c2 s2) <= m)%nat) by (cbn [String.length] in *; lia).
    destruct (IH _ _ _ _ _ _ _ L' U' T) as (N & [(J & A & R2 & ND)|(s1 & t2 & v & n & E & D & J & A & V1 & V2)]).
    + split; auto. right. subst. exists (String c ""), (String c2 s2), d, 1%nat. split; [reflexivity|]. split; [constructor; apply digit_spec; exact DV|]. split; [lia|]. split; [lia|].
      split; auto. rewrite (under_any true false); auto. intros s' E; inversion E; congruence.
    + split; auto. right. exists (String c s1), t2, (d * 10 ^ Z.of_nat n + v)%Z, (S n). split; [rewrite E; reflexivity|]. split; [apply digits_next; [apply digit_spec; exact DV|exact D]|].
      split; [lia|]. split; [rewrite A, Nat2Z.inj_succ, Z.pow_succ_r by lia; lia|]. auto.
Qed.
Lemma read_sign g f t r : sign g f -> (forall s', t <> String "-" s' /\ t <> String "+" s') -> drop_underscores false t = Some r -> (forall s', r <> String "-" s' /\ r <> String "+" s') ->
  exists r', drop_underscores false (g ++ t) = Some r' /\ take_sign r' = ((f <? 0)%Z, r).
Proof.
  intros S NT U NR. destruct S; cbn [String.append].
  - exists r. split; auto. destruct r as [|c r]; cbn [take_sign]; auto.
    destruct (Ascii.eqb_spec c "-") as [->|]; [destruct (NR r); congruence|]. destruct (Ascii.eqb_spec c "+") as [->|]; [destruct (NR r); congruence|]. reflexivity.
  - exists (String "+" r). cbn [drop_underscores]. change (Ascii.eqb "+" "_") with false. cbv iota. change (is_digit "+") with false. rewrite U. auto.
  - exists (String "-" r). cbn [drop_underscores]. change (Ascii.eqb "-" "_") with false. cbv iota. change (is_digit "-") with false. rewrite U. auto.
Qed.
Lemma sign_found s r neg r1 : drop_underscores false s = Some r -> take_sign r = (neg, r1) ->
  exists g f t, s = (g ++ t)%string /\ sign g f /\ drop_underscores false t = Some r1 /\ neg = (f <? 0)%Z.
Proof.
  intros U T. destruct s as [|c s].
  { cbn in U. inversion U; subst. cbn in T. inversion T; subst. exists "", 1%Z, "". repeat split; constructor. }
  pose proof U as U0. cbn [drop_underscores] in U. destruct (Ascii.eqb_spec c "_") as [->|NU]; [destruct s; discriminate|].
  destruct (drop_underscores (is_digit c) s) as [r'|] eqn:U'; [|discriminate]. inversion U; subst r. cbn [take_sign] in T.
  destruct (Ascii.eqb_spec c "-") as [->|]; [|destruct (Ascii.eqb_spec c "+") as [->|]]; inversion T; subst.
  - exists "-", (-1)%Z, s. repeat split; auto; constructor.
  - exists "+", 1%Z, s. repeat split; auto; constructor.
  - exists "", 1%Z, (String c s). repeat split; auto; constructor.
Qed.
Lemma digit_no_sign c k s : digit c k -> forall s', String c s <> String "-" s' /\ String c s <> String "+" s'.
Proof. intros D s'. apply digit_spec in D. split; intros E; inversion E; subst; discriminate D. Qed.
Lemma digits_nonneg s v n : digits s v n -> (0 <= v)%Z /\ (1 <= n)%nat.
Proof.
  assert (P : forall c k, digit c k -> (0 <= k)%Z) by (intros c k D; cbn in D; repeat destruct D as [D|D]; try (inversion D; lia)).
  induction 1 as [c k D|c k s v n D H IH|c k s v n D H IH]; try (pose proof (P _ _ D)); (split; [|lia]); auto; destruct IH; apply Z.add_nonneg_nonneg; auto; apply Z.mul_nonneg_nonneg; auto; apply Z.pow_nonneg; lia.
Qed.
(* ================= C56: integers ================= *)
Theorem C56_integers : forall s z, parse_int s = Ok z <-> integer_word s z.
Proof.
  intros s z. unfold parse_int. split.
  - destruct (drop_underscores false s) as [r|] eqn:U; [|discriminate]. destruct (take_sign r) as [neg s1] eqn:TS. destruct (take_digits 0 0 s1) as [[a j] s2] eqn:TD.
    destruct (Nat.eqb j 0) eqn:J; cbn [orb]; [discriminate|]. destruct s2 as [|c s2]; cbn [nonempty]; [|discriminate]. intros H. inversion H; subst z.
    destruct (sign_found _ _ _ _ U TS) as (g & f & t & -> & S & Ut & ->).
    destruct (digits_found _ _ _ _ _ _ _ _ (le_n _) Ut TD) as (_ & [(J0 & _)|(d1 & d2 & v & n & -> & D & _ & A & V & _)]); [subst; discriminate|].
    assert (d2 = "") by (destruct d2 as [|c d2]; auto; cbn [drop_underscores] in V; destruct (Ascii.eqb_spec c "_"); [destruct d2; [discriminate|]; cbn [andb] in V; destruct (is_digit a0) eqn:I; [|discriminate]; cbn [drop_underscores] in V; destruct (Ascii.eqb_spec a0 "_"); [subst; discriminate I|destruct (drop_underscores (is_digit a0) d2); discriminate]|destruct (drop_underscores (is_digit c) d2); discriminate]).
    subst d2. rewrite app_nil_s. replace (if (f <? 0)%Z then (- a)%Z else a) with (f * v)%Z by (subst a; destruct S; cbn [Z.ltb Z.compare]; lia). econstructor; eauto.
  - intros [g f t v n S D]. destruct (digits_start _ _ _ D) as (c & t' & k & E & DC).
    destruct (read_digits _ _ _ D false "" "" eq_refl) as (s' & U & (c2 & s2 & k2 & E2 & D2) & T). rewrite !app_nil_s in *.
    destruct (read_sign g f t s' S) as (r' & U' & TS); auto; [subst t; apply (digit_no_sign _ _ _ DC)|subst s'; apply (digit_no_sign _ _ _ D2)|].
    rewrite U', TS. pose proof (T 0%Z O) as T0. rewrite ?app_nil_s in T0. rewrite T0. cbn [take_digits]. destruct (digits_nonneg _ _ _ D).
    replace (Nat.eqb (0 + n) 0) with false by (symmetry; apply Nat.eqb_neq; lia). cbn [orb nonempty]. f_equal. destruct S; cbn [Z.ltb Z.compare]; lia.
Qed.
Print Assumptions C56_integers.

(* ---------------- real numbers ---------------- *)
Definition optdigits (s : string) (v : Z) (n : nat) : Prop := (s = "" /\ v = 0%Z /\ n = O) \/ digits s v n.
Lemma found_opt t r acc a j r2 : drop_underscores false t = Some r -> take_digits acc 0 r = (a, j, r2) ->
  exists d t2 v, t = (d ++ t2)%string /\ optdigits d v j /\ a = (acc * 10 ^ Z.of_nat j + v)%Z /\ drop_underscores false t2 = Some r2 /\ no_digit r2.
Proof.
  intros U T. destruct (digits_found _ _ _ _ _ _ _ _ (le_n _) U T) as (N & [(J & A & R2 & ND)|(s1 & t2 & v & n & E & D & J & A & V1 & V2)]).
  - subst. exists "", t, 0%Z. split; [reflexivity|]. split; [left; auto|]. split; [cbn; lia|]. auto.
  - cbn in J. subst. exists s1, t2, v. split; [reflexivity|]. split; [right; exact D|]. auto.
Qed.
Lemma read_opt d v n t r : optdigits d v n -> drop_underscores false t = Some r -> (forall s', t <> String "_" s') -> no_digit r ->
  exists q, drop_underscores false (d ++ t) = Some q /\ (d = "" /\ q = r \/ exists c q' k, q = String c q' /\ digit c k) /\
    forall acc, take_digits acc 0 q = ((acc * 10 ^ Z.of_nat n + v)%Z, n, r).
Proof.
  intros O U NU ND. destruct O as [(-> & -> & ->)|D].
  - exists r. split; [exact U|]. split; [auto|]. intros acc. rewrite take_stop by auto. repeat f_equal. cbn. lia.
  - rewrite (under_any false true) in U by auto. destruct (read_digits _ _ _ D false t r U) as (s' & E & (c & s2 & k & -> & DC) & T).
    eexists. split; [exact E|]. split; [right; cbn [String.append]; eauto|]. intros acc. rewrite T, take_stop by auto. reflexivity.
Qed.
Lemma char_found s c r : drop_underscores false s = Some (String c r) -> is_digit c = false -> exists s', s = String c s' /\ drop_underscores false s' = Some r.
Proof.
  intros U I. destruct s as [|c' s]; [discriminate|]. cbn [drop_underscores] in U. destruct (Ascii.eqb_spec c' "_") as [->|]; [destruct s; discriminate|].
  destruct (drop_underscores (is_digit c') s) as [q|] eqn:E; [|discriminate]. inversion U; subst. rewrite I in E. eauto.
Qed.
Lemma end_found s : drop_underscores false s = Some "" -> s = "".
Proof.
  destruct s as [|c s]; auto. cbn [drop_underscores]. destruct (Ascii.eqb c "_"); [destruct s; discriminate|]. destruct (drop_underscores (is_digit c) s); discriminate.
Qed.
Lemma lower_e c : Ascii.eqb (lower_ascii c) "e" = true <-> c = "e"%char \/ c = "E"%char.
Proof. split; [|intros [->| ->]; reflexivity]. destruct c as [[] [] [] [] [] [] [] []]; cbv; intros H; try discriminate; auto. Qed.
Lemma digit_of_none c : digit_value c = None <-> is_digit c = false.
Proof. unfold is_digit. destruct (digit_value c); split; congruence. Qed.
Lemma sign_cases (f : Z) g : sign g f -> f = 1%Z \/ f = (-1)%Z. Proof. intros []; auto. Qed.
Lemma pow10_eq n : pow10 n = 10 ^ n.
Proof. unfold pow10. rewrite <- pow_IZR. reflexivity. Qed.
Lemma ten_pos n : 0 < 10 ^ n. Proof. apply pow_lt. lra. Qed.
(* a mantissa: digits, maybe followed by a point and more digits *)
Inductive mantissa_parts : string -> string -> Z -> nat -> string -> Z -> nat -> Prop :=
| parts_whole d v n : optdigits d v n -> mantissa_parts d d v n "" 0 0
| parts_point d v n t w m : optdigits d v n -> optdigits t w m -> mantissa_parts (d ++ String "." t) d v n t w m.
Lemma mantissa_iff s x : mantissa s x <-> exists d v n t w m, mantissa_parts s d v n t w m /\ (n + m)%nat <> O /\ x = IZR v + IZR w / 10 ^ m.
Proof.
  split.
  - intros [d v n D|d v n D|d v n t w m D T|t w m T].
    + exists d, v, n, "", 0%Z, O. split; [constructor; right; exact D|]. pose proof (digits_nonneg _ _ _ D). split; [lia|]. cbn [pow]. lra.
    + exists d, v, n, "", 0%Z, O. split; [constructor; [right; exact D|left; auto]|]. pose proof (digits_nonneg _ _ _ D). split; [lia|]. cbn [pow]. lra.
    + exists d, v, n, t, w, m. split; [constructor; right; auto|]. pose proof (digits_nonneg _ _ _ D). split; [lia|]. reflexivity.
    + exists "", 0%Z, O, t, w, m. split; [apply (parts_point "" 0 0 t w m); [left; auto|right; auto]|]. pose proof (digits_nonneg _ _ _ T). split; [lia|]. lra.
  - intros (d & v & n & t & w & m & P & NZ & ->). destruct P as [d v n O|d v n t w m O1 O2].
    + destruct O as [(-> & -> & ->)|D]; [cbn in NZ; congruence|]. replace (IZR v + 0 / 10 ^ 0) with (IZR v) by (cbn [pow]; lra). econstructor; eauto.
    + destruct O1 as [(-> & -> & ->)|D1], O2 as [(-> & -> & ->)|D2].
      * cbn in NZ; congruence.
      * replace (0 + IZR w / 10 ^ m) with (IZR w / 10 ^ m) by lra. exact (mantissa_fraction t w m D2).
      * replace (IZR v + 0 / 10 ^ 0) with (IZR v) by (cbn [pow]; lra). exact (mantissa_dot d v n D1).
      * apply (mantissa_both d v n t w m); auto.
Qed.
Definition read_exponent (value : R) (s : string) : res R :=
  match s with
  | EmptyString => Ok value
  | String c s4 =>
      if Ascii.eqb (lower_ascii c) "e"%char
      then let '(eneg, s5) := take_sign s4 in
           let '(e, n3, s6) := take_digits 0 0 s5 in
           if (Nat.eqb n3 0 || nonempty s6)%bool then Err ValueError
           else Ok (if eneg then value / pow10 (Z.to_nat e) else value * pow10 (Z.to_nat e))
      else Err ValueError
  end.
Lemma exponent_found value t r x : drop_underscores false t = Some r -> read_exponent value r = Ok x -> exists y, exponent t y /\ x = value * y.
Proof.
  intros U H. unfold read_exponent in H. destruct r as [|c r].
  { inversion H; subst. rewrite (end_found _ U). exists 1. split; [constructor|lra]. }
  destruct (Ascii.eqb (lower_ascii c) "e") eqn:E; [|discriminate]. apply lower_e in E.
  destruct (char_found t c r U) as (t' & -> & U'); [destruct E; subst; reflexivity|].
  destruct (take_sign r) as [eneg s5] eqn:TS. destruct (take_digits 0 0 s5) as [[e n3] s6] eqn:TD. destruct (Nat.eqb n3 0) eqn:N3; [discriminate|].
  destruct s6 as [|? ?]; [|discriminate]. cbn [orb nonempty] in H.
  destruct (sign_found _ _ _ _ U' TS) as (g & f & t2 & -> & S & Ut & ->).
  destruct (found_opt _ _ _ _ _ _ Ut TD) as (d & t3 & v & -> & O & A & U3 & _). rewrite (end_found _ U3), app_nil_s.
  destruct O as [(_ & _ & ->)|D]; [discriminate|]. cbn in A. subst e.
  exists (if (f <? 0)%Z then / 10 ^ Z.to_nat v else 10 ^ Z.to_nat v). split.
  - change (String c (g ++ d))%string with (String c "" ++ (g ++ d))%string. eapply exponent_some; eauto. destruct E; subst; cbn; auto.
  - rewrite pow10_eq in H. destruct (f <? 0)%Z; inversion H; subst; reflexivity.
Qed.
Lemma exponent_read t y : exponent t y -> exists r, drop_underscores false t = Some r /\ (forall s', t <> String "_" s') /\ no_digit r /\ (forall r', r <> String "." r') /\
  forall value, read_exponent value r = Ok (value * y).
Proof.
  intros [|e g f s v n E S D].
  { exists "". repeat split; try discriminate. intros value. cbn. f_equal. lra. }
  destruct (digits_start _ _ _ D) as (c & t' & k & ES & DC).
  destruct (read_digits _ _ _ D false "" "" eq_refl) as (s' & U & (c2 & s2 & k2 & E2 & D2) & T). rewrite !app_nil_s in *.
  destruct (read_sign g f s s' S) as (r' & U' & TS); auto; [subst s; apply (digit_no_sign _ _ _ DC)|subst s'; apply (digit_no_sign _ _ _ D2)|].
  pose proof (T 0%Z O) as T0. rewrite ?app_nil_s in T0. destruct (digits_nonneg _ _ _ D).
  assert (K : exists ec, e = String ec "" /\ (ec = "e"%char \/ ec = "E"%char)) by (destruct E as [<-|[<-|[]]]; eauto). destruct K as (ec & -> & EC).
  exists (String ec r'). cbn [String.append]. split.
  { cbn [drop_underscores]. destruct EC; subst ec; cbn [Ascii.eqb Bool.eqb]; [change (is_digit "e") with false|change (is_digit "E") with false]; rewrite U'; reflexivity. }
  split; [intros q Q; inversion Q; subst; destruct EC; discriminate|]. split; [destruct EC; subst; reflexivity|]. split; [intros q Q; inversion Q; subst; destruct EC; discriminate|].
  intros value. unfold read_exponent. rewrite (proj2 (lower_e ec) EC), TS, T0. cbn [take_digits].
  replace (Nat.eqb (0 + n) 0) with false by (symmetry; apply Nat.eqb_neq; lia). cbn [orb nonempty]. rewrite pow10_eq. replace (0 * 10 ^ Z.of_nat n + v)%Z with v by lia. destruct (f <? 0)%Z; reflexivity.
Qed.
(* parse_float in these terms *)
Definition read_unsigned (neg : bool) (s1 : string) : res R :=
  let '(m1, n1, s2) := take_digits 0 0 s1 in
  let '(m2, n2, s3) := match s2 with
                       | String c s' => if Ascii.eqb c "."%char then take_digits m1 0 s' else (m1, O, s2)
                       | EmptyString => (m1, O, s2)
                       end in
  if Nat.eqb (n1 + n2) 0
  then (if mem (lower s1) ["inf"; "infinity"; "nan"] then Err NotANumber else Err ValueError)
  else read_exponent (IZR (if neg then - m2 else m2) / pow10 n2) s3.
Lemma parse_float_eq s : parse_float s = match drop_underscores false s with None => Err ValueError | Some s => let '(neg, s1) := take_sign s in read_unsigned neg s1 end.
Proof. reflexivity. Qed.
Lemma value_eq f g m1 v2 n2 : sign g f -> IZR (if (f <? 0)%Z then - (m1 * 10 ^ Z.of_nat n2 + v2) else m1 * 10 ^ Z.of_nat n2 + v2) / pow10 n2 = IZR f * (IZR m1 + IZR v2 / 10 ^ n2).
Proof.
  intros S. pose proof (ten_pos n2). rewrite pow10_eq.
  replace (if (f <? 0)%Z then (- (m1 * 10 ^ Z.of_nat n2 + v2))%Z else (m1 * 10 ^ Z.of_nat n2 + v2)%Z) with (f * (m1 * 10 ^ Z.of_nat n2 + v2))%Z by (destruct S; cbn [Z.ltb Z.compare]; lia).
  rewrite mult_IZR, plus_IZR, mult_IZR, <- pow_IZR. field. lra.
Qed.
Theorem C56_numbers : forall s x, parse_float s = Ok x <-> number_word s x.
Proof.
  intros s x. rewrite parse_float_eq. split.
  - destruct (drop_underscores false s) as [r|] eqn:U; [|discriminate]. destruct (take_sign r) as [neg s1] eqn:TS. unfold read_unsigned. destruct (take_digits 0 0 s1) as [[m1 n1] s2] eqn:TD.
    destruct (sign_found _ _ _ _ U TS) as (g & f & t & -> & S & Ut & ->). destruct (found_opt _ _ _ _ _ _ Ut TD) as (d & t2 & v & -> & OD & A & U2 & N2).
    cbn in A. subst m1. intros H.
    assert (CASE : exists m n2 w s3 t3 d2, mantissa_parts m d v n1 d2 w n2 /\ (d ++ t2 = m ++ t3)%string /\ drop_underscores false t3 = Some s3 /\
       (if Nat.eqb (n1 + n2) 0 then (if mem (lower s1) ["inf"; "infinity"; "nan"] then Err NotANumber else Err ValueError) else read_exponent (IZR (if (f <? 0)%Z then - (v * 10 ^ Z.of_nat n2 + w) else (v * 10 ^ Z.of_nat n2 + w)) / pow10 n2) s3) = Ok x).
    { destruct s2 as [|c s']; [|destruct (Ascii.eqb_spec c ".") as [->|NP]].
      - exists d, O, 0%Z, "", t2, "". split; [apply parts_whole; exact OD|]. split; [reflexivity|]. split; [exact U2|]. replace (v * 10 ^ Z.of_nat 0 + 0)%Z with v by (cbn; lia). exact H.
      - destruct (char_found _ _ _ U2 eq_refl) as (t3 & -> & U3). destruct (take_digits v 0 s') as [[m2 n2] s3] eqn:TD2.
        destruct (found_opt _ _ _ _ _ _ U3 TD2) as (d2 & t4 & w & -> & O2 & A2 & U4 & N4). exists (d ++ String "." d2)%string, n2, w, s3, t4, d2.
        split; [constructor; auto|]. split; [rewrite app_assoc_s; reflexivity|]. split; [exact U4|]. rewrite <- A2. exact H.
      - exists d, O, 0%Z, (String c s'), t2, "". split; [apply parts_whole; exact OD|]. split; [reflexivity|]. split; [exact U2|]. replace (v * 10 ^ Z.of_nat 0 + 0)%Z with v by (cbn; lia). exact H. }
    destruct CASE as (m & n2 & w & s3 & t3 & d2 & P & E & U3 & H3). rewrite E. destruct (Nat.eqb_spec (n1 + n2) 0) as [Z|NZ]; [destruct (mem _ _); discriminate|].
    destruct (exponent_found _ _ _ _ U3 H3) as (y & EY & ->). rewrite (value_eq f g) by exact S. constructor; auto. apply mantissa_iff. exists d, v, n1, d2, w, n2. auto.
  - intros [g f m x0 e y S M E]. apply mantissa_iff in M. destruct M as (d & v & n & t & w & k & P & NZ & ->). destruct (exponent_read e y E) as (re & UE & NE & NDE & NP & RE).
    assert (CASE : exists r1, drop_underscores false (m ++ e) = Some r1 /\ (forall s', (m ++ e)%string <> String "-" s' /\ (m ++ e)%string <> String "+" s') /\ (forall s', r1 <> String "-" s' /\ r1 <> String "+" s') /\
       forall neg, read_unsigned neg r1 = read_exponent (IZR (if neg then - (v * 10 ^ Z.of_nat k + w) else (v * 10 ^ Z.of_nat k + w)) / pow10 k) re).
    { destruct P as [d v n O|d v n t w k O1 O2].
      - destruct O as [(-> & -> & ->)|D]; [cbn in NZ; congruence|]. destruct (read_opt d v n e re (or_intror D) UE NE NDE) as (q & UQ & SQ & TQ). exists q. split; [exact UQ|].
        destruct (digits_start _ _ _ D) as (c & d' & kc & -> & DC). destruct SQ as [[X _]|(c2 & q' & k2 & -> & D2)]; [discriminate|].
        split; [apply (digit_no_sign _ _ _ DC)|]. split; [apply (digit_no_sign _ _ _ D2)|]. intros neg. unfold read_unsigned. rewrite TQ.
        replace (match re with String c0 s' => if Ascii.eqb c0 "." then take_digits (0 * 10 ^ Z.of_nat n + v) 0 s' else ((0 * 10 ^ Z.of_nat n + v)%Z, 0%nat, re) | EmptyString => ((0 * 10 ^ Z.of_nat n + v)%Z, 0%nat, re) end) with ((0 * 10 ^ Z.of_nat n + v)%Z, 0%nat, re)
          by (destruct re as [|c0 re]; auto; destruct (Ascii.eqb_spec c0 "."); auto; subst; destruct (NP re eq_refl)).
        destruct (Nat.eqb_spec (n + 0) 0); [congruence|]. replace (v * 10 ^ Z.of_nat 0 + 0)%Z with v by (cbn; lia). replace (0 * 10 ^ Z.of_nat n + v)%Z with v by lia. reflexivity.
      - destruct (read_opt t w k e re O2 UE NE NDE) as (q2 & UQ2 & _ & TQ2).
        assert (UP : drop_underscores false (String "." t ++ e) = Some (String "." q2)) by (cbn [String.append drop_underscores]; change (Ascii.eqb "." "_") with false; cbv iota; change (is_digit ".") with false; rewrite UQ2; reflexivity).
        destruct (read_opt d v n _ _ O1 UP) as (q & UQ & SQ & TQ); [cbn [String.append]; discriminate|reflexivity|]. exists q. rewrite app_assoc_s. split; [exact UQ|]. split; [|split].
        + destruct O1 as [(-> & _)|D]; [cbn [String.append]; split; discriminate|]. destruct (digits_start _ _ _ D) as (c & d' & kc & -> & DC). apply (digit_no_sign _ _ _ DC).
        + destruct SQ as [(-> & ->)|(c2 & q' & k2 & -> & D2)]; [split; discriminate|apply (digit_no_sign _ _ _ D2)].
        + intros neg. unfold read_unsigned. rewrite TQ. change (Ascii.eqb "." ".") with true. cbv iota. rewrite TQ2. destruct (Nat.eqb_spec (n + k) 0); [congruence|]. replace (0 * 10 ^ Z.of_nat n + v)%Z with v by lia. reflexivity. }
    destruct CASE as (r1 & U1 & S1 & S2 & RU). destruct (read_sign g f _ _ S S1 U1 S2) as (r' & U' & TS). rewrite U', TS, RU, RE. f_equal. rewrite (value_eq f g) by exact S. reflexivity.
Qed.
Print Assumptions C56_numbers.

(* ---------------- infinities ---------------- *)
Lemma mem3 s : mem s ["inf"; "infinity"; "nan"] = true <-> In s ["inf"; "infinity"; "nan"]. Proof. apply mem_true. Qed.
Lemma lower_spelled w t : all_chars (fun c => In c ["a"; "f"; "i"; "n"; "t"; "y"]%char) w -> lower t = w -> spelled_as w t.
Proof.
  unfold lower. revert t. induction w as [|c w IH]; intros [|x t] A E; cbn in E; try discriminate; [constructor|]. destruct A as [A1 A2]. inversion E; subst.
  assert (X : exists d, In (lower_ascii x, d) [("a", "A"); ("f", "F"); ("i", "I"); ("n", "N"); ("t", "T"); ("y", "Y")]%char /\ (x = lower_ascii x \/ x = d)).
  { clear - A1. revert A1. destruct x as [[] [] [] [] [] [] [] []]; cbv; intros H; (repeat destruct H as [H|H]; try discriminate; try contradiction); eexists; (split; [|left; reflexivity]) || (split; [|right; reflexivity]); cbn; tauto. }
  destruct X as (d & X1 & X2). econstructor; eauto. 
Qed.
Lemma spelled_lower w t : spelled_as w t -> lower t = w.
Proof.
  unfold lower. induction 1 as [|c d s t I H IH x X]; auto. cbn [smap]. rewrite IH. f_equal.
  cbn in I. repeat destruct I as [I|I]; try contradiction; inversion I; subst; destruct X; subst; reflexivity.
Qed.
Lemma under_same t : all_chars (fun c => c <> "_"%char) t -> forall b, drop_underscores b t = Some t.
Proof. induction t as [|c t IH]; intros A b; cbn [drop_underscores]; auto. destruct A as [A1 A2]. destruct (Ascii.eqb_spec c "_"); [contradiction|]. rewrite IH; auto. Qed.
Lemma under_chars t : forall b r, drop_underscores b t = Some r -> all_chars (fun c => is_digit c = false) r -> t = r.
Proof.
  assert (G : forall m t, (String.length t <= m)%nat -> forall b r, drop_underscores b t = Some r -> all_chars (fun c => is_digit c = false) r -> t = r).
  { induction m as [|m IH]; intros [|c s] L b r U A; cbn in L; try lia; try (cbn in U; inversion U; reflexivity).
    cbn [drop_underscores] in U. destruct (Ascii.eqb_spec c "_") as [->|].
    - destruct s as [|c' s]; [discriminate|]. destruct (b && is_digit c')%bool eqn:B; [|discriminate]. apply andb_true_iff in B. destruct B as [_ B].
      apply IH in U; [|lia|exact A]. subst r. destruct A as [A _]. congruence.
    - destruct (drop_underscores (is_digit c) s) as [q|] eqn:E; [|discriminate]. inversion U; subst. destruct A as [_ A]. f_equal. eapply IH; eauto. lia. }
  intros b r. apply (G (String.length t)); auto.
Qed.
Lemma special_letters w t : In w ["inf"; "infinity"; "nan"] -> spelled_as w t ->
  all_chars (fun c => is_digit c = false) t /\ all_chars (fun c => c <> "_"%char) t /\ exists c t', t = String c t' /\ digit_value c = None /\ c <> "."%char /\ c <> "-"%char /\ c <> "+"%char.
Proof.
  intros W S. split; [|split].
  - clear W. induction S as [|c d s t I H IH x X]; cbn [all_chars]; auto. split; auto. cbn in I. repeat destruct I as [I|I]; try contradiction; inversion I; subst; destruct X; subst; reflexivity.
  - clear W. induction S as [|c d s t I H IH x X]; cbn [all_chars]; auto. split; auto. cbn in I. repeat destruct I as [I|I]; try contradiction; inversion I; subst; destruct X; subst; discriminate.
  - destruct S as [|c d s t I H x X]; [cbn in W; repeat destruct W as [W|W]; try discriminate; contradiction|].
    exists x, t. split; [reflexivity|]. cbn in I. repeat destruct I as [I|I]; try contradiction; inversion I; subst; destruct X; subst; repeat split; discriminate.
Qed.
Lemma lower_letters s w : In w ["inf"; "infinity"; "nan"] -> lower s = w -> spelled_as w s.
Proof. intros W L. apply lower_spelled; auto. cbn in W. repeat destruct W as [W|W]; try contradiction; subst w; cbn; repeat split; tauto. Qed.
Theorem C56_special : forall s, parse_float s = Err NotANumber <-> special_word s.
Proof.
  intros s. rewrite parse_float_eq. split.
  - destruct (drop_underscores false s) as [r|] eqn:U; [|discriminate]. destruct (take_sign r) as [neg s1] eqn:TS. unfold read_unsigned. destruct (take_digits 0 0 s1) as [[m1 n1] s2].
    destruct (sign_found _ _ _ _ U TS) as (g & f & t & -> & S & Ut & ->). match goal with |- context [let '(_, _) := ?x in _] => destruct x as [[m2 n2] s3] end.
    destruct (Nat.eqb (n1 + n2) 0).
    + destruct (mem (lower s1) ["inf"; "infinity"; "nan"]) eqn:M; [|discriminate]. intros _. apply mem3 in M. pose proof (lower_letters _ _ M eq_refl) as SP.
      destruct (special_letters _ _ M SP) as (A1 & _). rewrite (under_chars _ _ _ Ut A1). exists g, f, (lower s1), s1. auto.
    + unfold read_exponent. destruct s3 as [|c s4]; [discriminate|]. destruct (Ascii.eqb _ _); [|discriminate]. destruct (take_sign s4) as [? s5]. destruct (take_digits 0 0 s5) as [[? ?] ?]. destruct (_ || _)%bool; discriminate.
  - intros (g & f & w & t & S & W & SP & ->). destruct (special_letters _ _ W SP) as (A1 & A2 & c & t' & -> & DV & NP & NM & NPl).
    destruct (read_sign g f (String c t') (String c t') S) as (r' & U & TS); [intros s'; split; intros E; inversion E; congruence|apply under_same; exact A2|intros s'; split; intros E; inversion E; congruence|].
    rewrite U, TS. unfold read_unsigned. rewrite take_stop by exact DV. destruct (Ascii.eqb_spec c "."); [contradiction|]. cbn [Nat.add Nat.eqb]. rewrite (spelled_lower _ _ SP), (proj2 (mem3 w) W). reflexivity.
Qed.
Print Assumptions C56_special.
(* everything else is refused *)
Theorem C56_refused : forall s, (forall x, ~ number_word s x) -> ~ special_word s -> parse_float s = Err ValueError.
Proof.
  intros s N S. destruct (parse_float s) as [x|e] eqn:E; [destruct (N x); apply C56_numbers; exact E|]. 
  assert (C : e = ValueError \/ e = NotANumber); [|destruct C as [-> | ->]; [reflexivity|destruct S; apply C56_special; exact E]].
  revert E. clear. rewrite parse_float_eq. destruct (drop_underscores false s) as [r|]; [|intros E; inversion E; auto]. destruct (take_sign r) as [neg s1]. unfold read_unsigned. destruct (take_digits 0 0 s1) as [[m1 n1] s2].
  match goal with |- context [let '(_, _) := ?x in _] => destruct x as [[m2 n2] s3] end. destruct (Nat.eqb _ 0); [destruct (mem _ _); intros E; inversion E; auto|].
  unfold read_exponent. destruct s3 as [|c s4]; [discriminate|]. destruct (Ascii.eqb _ _); [|intros E; inversion E; auto]. destruct (take_sign s4) as [? s5]. destruct (take_digits 0 0 s5) as [[? ?] ?]. destruct (_ || _)%bool; [intros E; inversion E; auto|discriminate].
Qed.
Print Assumptions C56_refused.
Theorem C56_integers_refused : forall s, (forall z, ~ integer_word s z) -> parse_int s = Err ValueError.
Proof.
  intros s N. destruct (parse_int s) as [z|e] eqn:E; [destruct (N z); apply C56_integers; exact E|]. revert E. clear. unfold parse_int.
  destruct (drop_underscores false s) as [r|]; [|intros E; inversion E; auto]. destruct (take_sign r) as [? s1]. destruct (take_digits 0 0 s1) as [[? ?] ?]. destruct (_ || _)%bool; [intros E; inversion E; auto|discriminate].
Qed.
Print Assumptions C56_integers_refused.

(* ---------------- words ---------------- *)
Lemma blank_spec c : blank c <-> is_space c = true.
Proof. destruct c as [[] [] [] [] [] [] [] []]; vm_compute; split; intros H; auto; try discriminate; try (repeat destruct H as [H|H]; try discriminate; contradiction); tauto. Qed.
Lemma not_blank c : ~ blank c <-> is_space c = false.
Proof. rewrite blank_spec. destruct (is_space c); split; congruence. Qed.
Lemma word_good w : word w <-> good_word w.
Proof.
  unfold word, good_word. enough (H : all_chars (fun c => ~ blank c) w <-> no_space w) by tauto. induction w as [|c w IH]; cbn [all_chars no_space]; [tauto|]. rewrite not_blank. tauto.
Qed.
Lemma words_blanks s t : blanks s -> words (s ++ t) = words t.
Proof. induction s as [|c s IH]; cbn [String.append]; auto. intros [B BS]. apply blank_spec in B. rewrite words_space by auto. apply IH. exact BS. Qed.
Lemma words_only w t : good_word w -> blanks t -> words (w ++ t) = [w].
Proof.
  intros [N E] B. destruct t as [|c t].
  - rewrite app_nil_s. unfold words. assert (P : pieces w = [w]) by (clear E; induction w as [|c w IH]; cbn [pieces]; auto; destruct N as [N1 N2]; rewrite N1, (IH N2); reflexivity).
    rewrite P. cbn. destruct w; [congruence|reflexivity].
  - destruct B as [B1 B2]. apply blank_spec in B1. rewrite words_word by auto. f_equal. rewrite <- (app_nil_s t). apply (words_blanks t ""). exact B2.
Qed.
Lemma words_of l ws : has_words l ws -> words l = ws.
Proof.
  induction 1 as [s B|s w t B W T|s w c l ws B W C H IH NE].
  - rewrite <- (app_nil_s s). rewrite words_blanks by auto. reflexivity.
  - rewrite words_blanks by auto. apply words_only; auto. apply word_good. exact W.
  - rewrite words_blanks by auto. apply word_good in W. destruct W. rewrite words_word by (auto; apply blank_spec; exact C). f_equal. exact IH.
Qed.
Lemma blank_before c l ws : blank c -> has_words l ws -> has_words (String c l) ws.
Proof.
  intros B [s S|s w t S W T|s w d l' ws' S W D H NE].
  - constructor. split; auto.
  - apply (words_last (String c s) w t); auto. split; auto.
  - apply (words_more (String c s) w d l' ws'); auto. split; auto.
Qed.
Lemma word_before c d l ws : ~ blank c -> ~ blank d -> has_words (String d l) ws -> exists w ws', ws = w :: ws' /\ has_words (String c (String d l)) (String c w :: ws').
Proof.
  intros C D H. remember (String d l) as x eqn:E. destruct H as [s S|s w t S W T|s w e l' ws' S W B H NE].
  - subst. destruct S; contradiction.
  - destruct s as [|q s]; [|cbn in E; inversion E; subst; destruct S; contradiction]. exists w, []. split; [reflexivity|]. cbn [String.append] in *.
    change (String c (w ++ t))%string with ("" ++ (String c w ++ t))%string. constructor; auto. destruct W. split; [discriminate|split; auto].
  - destruct s as [|q s]; [|cbn in E; inversion E; subst; destruct S; contradiction]. exists w, ws'. split; [reflexivity|]. cbn [String.append] in *.
    change (String c (w ++ String e l'))%string with ("" ++ (String c w ++ String e l'))%string. constructor; auto. destruct W. split; [discriminate|split; auto].
Qed.
Lemma has_words_all : forall n s, (String.length s <= n)%nat -> has_words s (words s).
Proof.
  induction n as [|n IH]; intros [|c s] L; cbn [String.length] in L; try lia; try (apply words_none; exact I).
  destruct (is_space c) eqn:B.
  - rewrite words_space by auto. apply blank_before; [apply blank_spec; auto|]. apply IH. lia.
  - apply not_blank in B. destruct s as [|d s].
    + assert (W : has_words ("" ++ (String c "" ++ "")) [String c ""]) by (constructor; [exact I|split; [discriminate|split; [exact B|exact I]]|exact I]). pose proof (words_of _ _ W) as E. cbn [String.append] in *. rewrite E. exact W.
    + destruct (is_space d) eqn:BD.
      * apply blank_spec in BD. assert (HS : has_words s (words s)) by (apply IH; cbn [String.length] in L; lia).
        assert (WC : word (String c "")) by (split; [discriminate|split; [exact B|exact I]]).
        destruct (words s) as [|w ws] eqn:E.
        -- assert (W : has_words ("" ++ (String c "" ++ String d s)) [String c ""]).
           { constructor; auto; [exact I|]. split; auto. clear - HS. inversion HS; auto. }
           pose proof (words_of _ _ W) as X. cbn [String.append] in *. rewrite X. exact W.
        -- assert (W : has_words ("" ++ (String c "" ++ String d s)) (String c "" :: w :: ws)) by (constructor; auto; [exact I|discriminate]).
           pose proof (words_of _ _ W) as X. cbn [String.append] in *. rewrite X. exact W.
      * apply not_blank in BD. assert (HS : has_words (String d s) (words (String d s))) by (apply IH; lia).
        destruct (word_before c d s _ B BD HS) as (w & ws' & E & W). rewrite (words_of _ _ W). exact W.
Qed.
Theorem C56_words : forall s ws, words s = ws <-> has_words s ws.
Proof. intros s ws. split; [intros <-; eapply has_words_all; eauto|apply words_of]. Qed.
Print Assumptions C56_words.

(* ---------------- strip ---------------- *)
Lemma lstrip_blanks s t : blanks s -> lstrip (s ++ t) = lstrip t.
Proof. induction s as [|c s IH]; cbn [String.append lstrip]; auto. intros [B BS]. apply blank_spec in B. rewrite B. auto. Qed.
Lemma rstrip_blanks t : blanks t -> rstrip t = "".
Proof. induction t as [|c t IH]; cbn [rstrip]; auto. intros [B BS]. apply blank_spec in B. rewrite (IH BS), B. reflexivity. Qed.
Lemma rstrip_end m d t : ~ blank d -> blanks t -> rstrip (m ++ String d t) = (m ++ String d "")%string.
Proof.
  intros D T. apply not_blank in D. induction m as [|c m IH]; cbn [String.append rstrip].
  - rewrite (rstrip_blanks t T), D. reflexivity.
  - rewrite IH. destruct m; reflexivity.
Qed.
Lemma strip_by s t : strip_of s t -> strip s = t.
Proof.
  intros [s' B|s' c t' B C T|s' c m d t' B C D T]; unfold strip.
  - rewrite <- (app_nil_s s'). rewrite lstrip_blanks by auto. reflexivity.
  - rewrite lstrip_blanks by auto. cbn [lstrip]. rewrite (proj1 (not_blank c) C). apply (rstrip_end "" c t' C T).
  - rewrite lstrip_blanks by auto. cbn [lstrip]. rewrite (proj1 (not_blank c) C). apply (rstrip_end (String c m) d t' D T).
Qed.
Lemma split_left s : blanks s \/ exists b c t, blanks b /\ ~ blank c /\ s = (b ++ String c t)%string.
Proof.
  induction s as [|c s IH]; [left; exact I|]. destruct (is_space c) eqn:B.
  - apply blank_spec in B. destruct IH as [IH|(b & d & t & Bb & D & ->)]; [left; split; auto|]. right. exists (String c b), d, t. repeat split; auto.
  - right. exists "", c, s. repeat split. apply not_blank; auto.
Qed.
Lemma split_right s : blanks s \/ exists m d t, ~ blank d /\ blanks t /\ s = (m ++ String d t)%string.
Proof.
  induction s as [|c s IH]; [left; exact I|]. destruct IH as [IH|(m & d & t & D & T & ->)].
  - destruct (is_space c) eqn:B; [left; split; auto; apply blank_spec; auto|]. right. exists "", c, s. repeat split; auto. apply not_blank; auto.
  - right. exists (String c m), d, t. auto.
Qed.
Lemma strip_all s : exists t, strip_of s t.
Proof.
  destruct (split_left s) as [B|(b & c & t & B & C & ->)]; [exists ""; constructor; auto|].
  destruct (split_right t) as [T|(m & d & t' & D & T & ->)]; [exists (String c ""); constructor; auto|]. eexists. apply strip_some; auto.
Qed.
Theorem C56_comment : forall s t, strip s = t <-> strip_of s t.
Proof. intros s t. split; [|apply strip_by]. intros <-. destruct (strip_all s) as (t & T). rewrite (strip_by _ _ T). exact T. Qed.
Print Assumptions C56_comment.

(* ---------------- lines ---------------- *)
Lemma newline_free s : all_chars (fun c => c <> newline) s <-> free LF s.
Proof. induction s as [|c s IH]; cbn [all_chars free]; [tauto|]. change newline with LF. rewrite IH. tauto. Qed.
Lemma lines_by s ls : lines_of s ls -> readlines s = ls.
Proof.
  induction 1 as [|s N F|s t ls F H IH]; auto.
  - apply newline_free in F. destruct s as [|c s]; [congruence|]. clear N. revert c F. induction s as [|d s IH]; intros c [F1 F2].
    + cbn [readlines]. destruct (Ascii.eqb_spec c LF); [congruence|reflexivity].
    + cbn [readlines]. cbn [readlines] in IH. rewrite (IH d F2). destruct (Ascii.eqb_spec c LF); [congruence|reflexivity].
  - apply newline_free in F. change newline with LF. rewrite readlines_line by auto. f_equal. exact IH.
Qed.
Lemma lines_all s : exists ls, lines_of s ls.
Proof.
  induction s as [|c s (ls & IH)]; [exists []; constructor|]. destruct (Ascii.eqb_spec c newline) as [->|N].
  - exists (String newline "" :: ls). apply (lines_more "" s ls); [exact I|exact IH].
  - destruct IH as [|s NE F|s t ls F H].
    + exists [String c ""]. constructor; [discriminate|split; [auto|exact I]].
    + exists [String c s]. constructor; [discriminate|split; auto].
    + exists ((String c s ++ String newline "")%string :: ls). apply (lines_more (String c s) t ls); [split; auto|exact H].
Qed.
Theorem C56_lines : forall s ls, readlines s = ls <-> lines_of s ls.
Proof. intros s ls. split; [|apply lines_by]. intros <-. destruct (lines_all s) as (ls & H). rewrite (lines_by _ _ H). exact H. Qed.
Print Assumptions C56_lines.
Lemma newlines_by s t : newlines_read s t -> universal_newlines s = t.
Proof.
  induction 1 as [|s t H IH|s t H IH N|c s t N H IH]; auto.
  - cbn [universal_newlines]. change (Ascii.eqb carriage CR) with true. change (Ascii.eqb newline LF) with true. change (Ascii.eqb newline CR) with false. cbv iota. rewrite IH. reflexivity.
  - cbn [universal_newlines]. change (Ascii.eqb carriage CR) with true. cbv iota. destruct s as [|c s]; [inversion H; subst; reflexivity|].
    destruct (Ascii.eqb_spec c LF) as [->|]; [destruct (N s eq_refl)|]. rewrite IH. reflexivity.
  - cbn [universal_newlines]. destruct (Ascii.eqb_spec c CR); [contradiction|]. rewrite IH. reflexivity.
Qed.
Lemma newlines_all : forall n s, (String.length s <= n)%nat -> exists t, newlines_read s t.
Proof.
  induction n as [|n IH]; intros [|c s] L; cbn [String.length] in L; try lia; try (exists ""; constructor).
  destruct (Ascii.eqb_spec c carriage) as [->|N].
  - destruct s as [|d s]; [exists (String newline ""); constructor; [constructor|discriminate]|].
    destruct (Ascii.eqb_spec d newline) as [->|ND].
    + destruct (IH s) as (t & T); [cbn [String.length] in L; lia|]. eexists. apply newlines_both. exact T.
    + destruct (IH (String d s)) as (t & T); [lia|]. eexists. apply newlines_single; [exact T|]. intros s' E. inversion E. contradiction.
  - destruct (IH s) as (t & T); [lia|]. eexists. apply newlines_other; eauto.
Qed.
Theorem C56_newlines : forall s t, universal_newlines s = t <-> newlines_read s t.
Proof. intros s t. split; [|apply newlines_by]. intros <-. destruct (newlines_all _ s (le_n _)) as (t & H). rewrite (newlines_by _ _ H). exact H. Qed.
Print Assumptions C56_newlines.

(* ---------------- concrete cases ---------------- *)
Example C56_number_case : number_word "-1_0.25e+2" (-1025).
Proof.
  assert (V : -1025 = IZR (-1) * (IZR (1 * 10 ^ Z.of_nat 1 + 0) + IZR (2 * 10 ^ Z.of_nat 1 + 5) / 10 ^ 2) * (if (1 <? 0)%Z then / 10 ^ Z.to_nat 2 else 10 ^ Z.to_nat 2)).
  { change (1 * 10 ^ Z.of_nat 1 + 0)%Z with 10%Z. change (2 * 10 ^ Z.of_nat 1 + 5)%Z with 25%Z. change (1 <? 0)%Z with false. change (Z.to_nat 2) with 2%nat. cbn [pow]. lra. }
  rewrite V.
  change "-1_0.25e+2" with ("-" ++ ("1_0" ++ "." ++ "25") ++ ("e" ++ "+" ++ "2"))%string. constructor; [constructor| |].
  - apply (mantissa_both "1_0" _ 2 "25" _ 2); [apply digits_under; [cbn; tauto|constructor; cbn; tauto]|apply digits_next; [cbn; tauto|constructor; cbn; tauto]].
  - apply (exponent_some "e" "+" 1 "2" 2 1); [cbn; auto|constructor|constructor; cbn; tauto].
Qed.
Example C56_special_case : special_word "-InFinity".
Proof. exists "-", (-1)%Z, "infinity", "InFinity". repeat split; [constructor|cbn; tauto|]. apply lower_letters; [cbn; tauto|reflexivity]. Qed.
Example C56_refused_case : (forall x, ~ number_word "1__0" x) /\ ~ special_word "1__0" /\ forall z, ~ integer_word "1.0" z.
Proof.
  split; [intros x H; apply C56_numbers in H; vm_compute in H; discriminate H|]. split; [intros H; apply C56_special in H; vm_compute in H; discriminate H|].
  intros z H. apply C56_integers in H. vm_compute in H. discriminate H.
Qed.
Example C56_words_case : has_words (String "009" "Fe  Br ") ["Fe"; "Br"].
Proof. apply C56_words. reflexivity. Qed.
