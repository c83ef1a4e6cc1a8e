(* F_Strings.v : lemmas about split, join, dec and dicts *)
From Verif Require Import Base M_Strings M_Dict.
From Coq Require Import DecimalString DecimalNat.
Open Scope list_scope.

(* the character c does not occur in s *)
Fixpoint free (c : ascii) (s : string) : Prop :=
  match s with EmptyString => True | String x s' => x <> c /\ free c s' end.

Lemma app_str_assoc a b c : ((a ++ b) ++ c = a ++ (b ++ c))%string.
Proof. induction a; cbn; congruence. Qed.
Lemma app_str_nil a : (a ++ "" = a)%string.
Proof. induction a; cbn; congruence. Qed.
Lemma app_str_inj a b c : (a ++ b = a ++ c)%string -> b = c.
Proof. induction a; cbn; [auto|]. intros H. injection H. auto. Qed.
Lemma free_app c a b : free c (a ++ b)%string <-> free c a /\ free c b.
Proof. induction a; cbn; tauto. Qed.

Lemma split_nonempty c s : split c s <> [].
Proof. destruct s; cbn; [discriminate|]. destruct (Ascii.eqb _ _); [discriminate|]. destruct (split c s); discriminate. Qed.
Lemma split_pieces c s : Forall (free c) (split c s).
Proof.
  induction s as [|x s IH]; cbn; [repeat constructor|]. destruct (Ascii.eqb_spec x c).
  - constructor; cbn; auto.
  - destruct (split c s) as [|w ws]; constructor; try (inversion IH; subst; cbn; auto).
Qed.
Lemma join_cons sep w ws : ws <> [] -> join sep (w :: ws) = (w ++ sep ++ join sep ws)%string.
Proof. destruct ws; [congruence|reflexivity]. Qed.
Lemma join_split c s : join (String c "") (split c s) = s.
Proof.
  induction s as [|x s IH]; cbn [split]; [reflexivity|]. destruct (Ascii.eqb_spec x c).
  - subst. rewrite join_cons by apply split_nonempty. rewrite IH. reflexivity.
  - pose proof (split_nonempty c s). destruct (split c s) as [|w [|w' ws]]; [congruence| |].
    + cbn in *. congruence.
    + rewrite join_cons in * by discriminate. cbn [append] in *. congruence.
Qed.
Lemma split_free c s : free c s -> split c s = [s].
Proof.
  induction s as [|x s IH]; cbn; [reflexivity|]. intros [H1 H2]. destruct (Ascii.eqb_spec x c); [contradiction|].
  rewrite IH by auto. reflexivity.
Qed.
Lemma split_app c w s : free c w -> split c (w ++ String c s)%string = w :: split c s.
Proof.
  induction w as [|x w IH]; cbn [append split free]; intros H.
  - rewrite Ascii.eqb_refl. reflexivity.
  - destruct H as [H1 H2]. destruct (Ascii.eqb_spec x c); [contradiction|]. rewrite IH by auto. reflexivity.
Qed.
Lemma split_join c l : l <> [] -> Forall (free c) l -> split c (join (String c "") l) = l.
Proof.
  induction l as [|w l IH]; [congruence|]. intros _ F. inversion F as [|? ? F1 F2]; subst. destruct l as [|w' l].
  - cbn. apply split_free; auto.
  - rewrite join_cons by discriminate. cbn [append]. rewrite split_app by auto. rewrite IH; [auto|discriminate|auto].
Qed.
Lemma split_len1 c s : length (split c s) = 1%nat <-> free c s.
Proof.
  split; intros H.
  - pose proof (join_split c s) as J. pose proof (split_pieces c s) as P.
    destruct (split c s) as [|w [|]]; try discriminate. cbn in J. subst. inversion P; auto.
  - rewrite split_free by auto. reflexivity.
Qed.

Lemma to_uint_nonnil n : Nat.to_uint n <> Decimal.Nil.
Proof.
  rewrite <- (Unsigned.of_to n) at 1. rewrite Unsigned.to_of. unfold Decimal.unorm.
  destruct (Decimal.nzhead (Nat.to_uint n)); discriminate.
Qed.
Lemma dec_inj a b : dec a = dec b -> a = b.
Proof.
  unfold dec. intros H. apply (f_equal NilZero.uint_of_string) in H.
  rewrite !NilZero.usu in H.
  - injection H as H. apply (f_equal Nat.of_uint) in H. rewrite !Unsigned.of_to in H. exact H.
  - apply to_uint_nonnil.
  - apply to_uint_nonnil.
Qed.

Fixpoint digits_only (s : string) : Prop :=
  match s with
  | EmptyString => True
  | String c s' => (48 <= nat_of_ascii c <= 57)%nat /\ digits_only s'
  end.
Lemma uint_digits u : digits_only (NilEmpty.string_of_uint u).
Proof. induction u; cbn [NilEmpty.string_of_uint digits_only]; auto; split; auto; vm_compute; lia. Qed.
Lemma dec_digits n : digits_only (dec n).
Proof.
  unfold dec. destruct (Nat.to_uint n); try apply uint_digits. vm_compute. lia.
Qed.
Lemma digits_free c s : ~ (48 <= nat_of_ascii c <= 57)%nat -> digits_only s -> free c s.
Proof.
  intros H. induction s as [|x s IH]; cbn; auto. intros [D1 D2]. split; auto. intros ->. contradiction.
Qed.
Lemma dec_nonempty n : dec n <> EmptyString.
Proof. intros H. change EmptyString with "" in H. unfold dec in H. destruct (Nat.to_uint n); discriminate. Qed.

(* ---------------- lists of strings and dicts ---------------- *)
Lemma mem_true k l : mem k l = true <-> In k l.
Proof.
  unfold mem. rewrite existsb_exists. split.
  - intros (x & Hx & E). apply String.eqb_eq in E. subst. auto.
  - intros H. exists k. split; auto. apply String.eqb_refl.
Qed.
Lemma mem_false k l : mem k l = false <-> ~ In k l.
Proof. rewrite <- mem_true. destruct (mem k l); split; intros; try discriminate; try tauto; congruence. Qed.
Lemma forallb_mem l m : forallb (fun s => mem s m) l = true <-> incl l m.
Proof. rewrite forallb_forall. split; intros H x Hx; apply mem_true; auto. Qed.

Lemma lookup_in {A} k (d : dict A) : (exists v, lookup k d = Some v) <-> In k (keys d).
Proof.
  induction d as [|[k' v'] d IH]; cbn.
  - split; [intros [v H]; discriminate|tauto].
  - destruct (String.eqb_spec k k'); [subst; split; eauto|]. rewrite IH. split; auto. intros [H|H]; auto. congruence.
Qed.
Lemma lookup_none {A} k (d : dict A) : lookup k d = None <-> ~ In k (keys d).
Proof.
  rewrite <- lookup_in. destruct (lookup k d) as [v|]; split.
  - discriminate.
  - intros H. destruct H. eauto.
  - intros _ [v H]. discriminate.
  - auto.
Qed.
Lemma lookup_set {A} k v (d : dict A) x : lookup x (setitem k v d) = if String.eqb x k then Some v else lookup x d.
Proof.
  induction d as [|[k' v'] d IH]; cbn.
  - reflexivity.
  - destruct (String.eqb_spec k k').
    + subst. cbn. destruct (String.eqb_spec x k'); reflexivity.
    + cbn. rewrite IH. destruct (String.eqb_spec x k'); destruct (String.eqb_spec x k); congruence.
Qed.
Lemma keys_set {A} k v (d : dict A) : keys (setitem k v d) = if mem k (keys d) then keys d else keys d ++ [k].
Proof.
  induction d as [|[k' v'] d IH]; cbn; [reflexivity|].
  destruct (String.eqb_spec k k'); cbn; [reflexivity|].
  unfold keys in *. cbn. rewrite IH. fold (mem k (map fst d)). destruct (mem k (map fst d)); reflexivity.
Qed.
Lemma keys_del {A} k (d : dict A) : keys (delitem k d) = remove_first k (keys d).
Proof.
  induction d as [|[k' v'] d IH]; cbn; [reflexivity|]. destruct (String.eqb_spec k k'); cbn; [reflexivity|].
  unfold keys in *. rewrite IH. reflexivity.
Qed.
Lemma remove_first_in k l x : NoDup l -> In x (remove_first k l) <-> In x l /\ x <> k.
Proof.
  induction 1 as [|y l Hy Hl IH]; cbn; [tauto|]. destruct (String.eqb_spec k y).
  - subst. split; [|intuition congruence]. intros H. split; auto. intros ->. contradiction.
  - cbn. rewrite IH. split; [|tauto]. intros [->|[H1 H2]]; auto.
Qed.
Lemma remove_first_sub k l x : In x (remove_first k l) -> In x l.
Proof. induction l as [|y l IH]; cbn; auto. destruct (String.eqb k y); cbn; tauto. Qed.
Lemma remove_first_nodup k l : NoDup l -> NoDup (remove_first k l).
Proof.
  induction 1 as [|y l Hy Hl IH]; cbn; [constructor|]. destruct (String.eqb k y); auto. constructor; auto.
  intros H. apply Hy. eapply remove_first_sub; eauto.
Qed.
Lemma lookup_del {A} k (d : dict A) x : NoDup (keys d) ->
  lookup x (delitem k d) = if String.eqb x k then None else lookup x d.
Proof.
  induction d as [|[k' v'] d IH]; cbn; intros N.
  - destruct (String.eqb x k); reflexivity.
  - inversion N as [|? ? N1 N2]; subst. destruct (String.eqb_spec k k').
    + subst. destruct (String.eqb_spec x k'); [|reflexivity]. subst. apply lookup_none; auto.
    + cbn. rewrite IH by auto. destruct (String.eqb_spec x k'); destruct (String.eqb_spec x k); congruence.
Qed.
Lemma fold_set_keys {A} (l : list (string * A)) d : NoDup (keys d ++ map fst l) ->
  fold_left (fun d kv => setitem (fst kv) (snd kv) d) l d = d ++ l.
Proof.
  revert d; induction l as [|[k v] l IH]; intros d N; cbn [fold_left fst snd].
  - rewrite app_nil_r. reflexivity.
  - assert (E : setitem k v d = d ++ [(k, v)]).
    { cbn in N. apply NoDup_remove_2 in N. rewrite in_app_iff in N. clear - N.
      induction d as [|[k' v'] d IH]; cbn; [reflexivity|]. destruct (String.eqb_spec k k').
      - subst. cbn in N. tauto.
      - rewrite IH; auto. cbn in N. tauto. }
    rewrite E, IH.
    + rewrite <- app_assoc. reflexivity.
    + unfold keys in *. rewrite map_app. cbn in *. rewrite <- app_assoc. exact N.
Qed.
Lemma make_dict_nodup {A} (l : list (string * A)) : NoDup (map fst l) -> make_dict l = l.
Proof. intros H. unfold make_dict. rewrite fold_set_keys by exact H. reflexivity. Qed.
Lemma combine_fst {A B} (l : list A) (m : list B) : length l = length m -> map fst (combine l m) = l.
Proof. revert m; induction l; destruct m; cbn; try discriminate; auto. intros H. rewrite IHl; auto. Qed.
Lemma getitem_ok {A} k (d : dict A) v : getitem k d = Ok v <-> lookup k d = Some v.
Proof. unfold getitem. destruct (lookup k d); split; congruence. Qed.
Lemma getitem_err {A} k (d : dict A) e : getitem k d = Err e <-> ~ In k (keys d) /\ e = KeyError.
Proof.
  unfold getitem. rewrite <- lookup_none. destruct (lookup k d); split; try congruence; try (intros []; congruence).
  intros H. split; congruence.
Qed.
