(* F_Atoms.v : facts about the atoms model *)
From Verif Require Import Base M_Strings M_Dict F_Strings F_Voronoi T_Atoms M_Atoms.
Open Scope string_scope.
Open Scope list_scope.

(* ---------- validation ---------- *)
Lemma collect_lengths_ok r d : forall acc,
  (forall ns, collect_lengths r d acc = inr ns -> Forall2 (fun kv n => py_len (snd kv) = Ok n) d (skipn (length acc) ns) /\ firstn (length acc) ns = acc).
Proof.
  induction d as [|[k v] d IH]; cbn [collect_lengths]; intros acc ns H.
  - injection H as <-. rewrite skipn_all, firstn_all. split; constructor.
  - destruct (py_len v) as [n|e] eqn:E; [|discriminate]. apply IH in H. rewrite app_length in H. cbn [length] in H. destruct H as [A B].
    assert (L : length (firstn (length acc + 1) ns) = (length acc + 1)%nat) by (rewrite B, app_length; reflexivity).
    rewrite firstn_length in L. 
    split.
    + assert (skipn (length acc) ns = n :: skipn (length acc + 1) ns) as ->.
      { rewrite <- (firstn_skipn (length acc + 1) ns) at 1. rewrite B, <- app_assoc, skipn_app, skipn_all, Nat.sub_diag. reflexivity. }
      constructor; auto.
    + rewrite <- (firstn_skipn (length acc + 1) ns), B, <- app_assoc, firstn_app, firstn_all, Nat.sub_diag. cbn. apply app_nil_r.
Qed.
Lemma collect_lengths_err r d : forall acc x, collect_lengths r d acc = inl x ->
  x = (if r then Err TypeError else Ok false) /\ Exists (fun kv => py_len (snd kv) = Err TypeError) d.
Proof.
  induction d as [|[k v] d IH]; cbn [collect_lengths]; intros acc x H; [discriminate|].
  destruct (py_len v) as [n|e] eqn:E.
  - apply IH in H. destruct H. split; auto.
  - injection H as <-. assert (e = TypeError) by (destruct v; cbn in E; congruence). subst. split; auto.
Qed.
Lemma collect_lengths_mode d : forall acc,
  match collect_lengths true d acc, collect_lengths false d acc with
  | inr a, inr b => a = b
  | inl a, inl b => a = Err TypeError /\ b = Ok false
  | _, _ => False
  end.
Proof.
  induction d as [|[k v] d IH]; cbn [collect_lengths]; intros acc; [reflexivity|].
  destruct (py_len v) as [n|e] eqn:E; [apply IH|]. split; auto. destruct v; cbn in E; congruence.
Qed.

(* the two modes of a check *)
Definition agree (a b : res bool) : Prop := (a = Ok true /\ b = Ok true) \/ (a = Err ValueError /\ b = Ok false).
Lemma agree_required atoms req a b : agree a b -> agree (check_required true atoms req a) (check_required false atoms req b).
Proof. intros H. induction req; cbn [check_required]; auto. destruct (mem _ _); auto. right; auto. Qed.
Lemma agree_positions v a b : agree a b -> agree (check_positions true v a) (check_positions false v b).
Proof. intros H. unfold check_positions. destruct (np_shape v); [|right; auto]. destruct (_ || _); auto. right; auto. Qed.
Lemma agree_names v a b : agree a b -> agree (check_names true v a) (check_names false v b).
Proof. intros H. induction v as [|x v IH]; cbn [check_names]; auto. destruct x; auto; right; auto. Qed.
Lemma agree_species v a b : agree a b -> agree (check_species true v a) (check_species false v b).
Proof. intros H. induction v as [|x v IH]; cbn [check_species]; auto. destruct x; auto; try (right; auto; fail). destruct (_ && _); auto. right; auto. Qed.
Lemma agree_types v a b : agree a b -> agree (check_types true v a) (check_types false v b).
Proof. intros H. induction v as [|x v IH]; cbn [check_types]; auto. destruct x; auto; try (right; auto; fail); [destruct (_ <? _)%Z|destruct (negb _)]; auto; right; auto. Qed.
Lemma agree_when k atoms f g a b : (forall v x y, agree x y -> agree (f v x) (g v y)) -> agree a b -> agree (when_present k atoms f a) (when_present k atoms g b).
Proof. intros F H. unfold when_present. destruct (lookup k atoms); auto. Qed.
Definition content_checks (atoms : atoms_dict) (req : list string) (r : bool) : res bool :=
  check_required r atoms req
    (when_present "positions" atoms (check_positions r)
       (when_present "names" atoms (fun v => check_names r (elements v))
          (when_present "species" atoms (fun v => check_species r (elements v))
             (when_present "spglib_types" atoms (fun v => check_types r (elements v)) (Ok true))))).
Lemma content_agree atoms req : agree (content_checks atoms req true) (content_checks atoms req false).
Proof.
  apply agree_required. repeat (apply agree_when; [intros v x y H; auto using agree_positions, agree_names, agree_species, agree_types|]).
  left; auto.
Qed.
Lemma validate_modes atoms req :
  (validate_atoms atoms req true = Ok true /\ validate_atoms atoms req false = Ok true) \/
  ((exists e, validate_atoms atoms req true = Err e /\ (e = TypeError \/ e = ValueError)) /\ validate_atoms atoms req false = Ok false).
Proof.
  unfold validate_atoms. pose proof (collect_lengths_mode atoms []) as M.
  destruct (collect_lengths true atoms []) as [a|a], (collect_lengths false atoms []) as [b|b]; try contradiction.
  - destruct M as [-> ->]. right. eauto.
  - subst b. destruct (Nat.ltb _ _); [right; eauto|].
    pose proof (content_agree atoms req) as A. unfold content_checks in A.
    destruct A as [A|[A B]]; [left; auto|right; eauto].
Qed.

(* ---------- shapes ---------- *)
Lemma nats_eqb_eq a : forall b, nats_eqb a b = true <-> a = b.
Proof.
  induction a as [|x a IH]; intros [|y b]; cbn; split; intros H; try discriminate; auto.
  - apply andb_true_iff in H. destruct H as [A B]. apply Nat.eqb_eq in A. apply IH in B. congruence.
  - injection H as -> ->. rewrite Nat.eqb_refl. cbn. apply IH. auto.
Qed.
Definition rows := (fix rows (l : list pyval) (n : nat) (inner : option (list nat)) : option (list nat) :=
         match l with
         | [] => Some (n :: match inner with Some s => s | None => [] end)
         | x :: l' =>
             match np_shape x with
             | None => None
             | Some s =>
                 match inner with
                 | None => rows l' (S n) (Some s)
                 | Some t => if nats_eqb s t then rows l' (S n) (Some t) else None
                 end
             end
         end).
Lemma np_shape_list l : np_shape (PList l) = rows l O None.
Proof. reflexivity. Qed.
Lemma rows_some l : forall n t s, rows l n (Some t) = Some s <-> (forall x, In x l -> np_shape x = Some t) /\ s = (n + length l)%nat :: t.
Proof.
  induction l as [|x l IH]; intros n t s; cbn [rows length].
  - rewrite Nat.add_0_r. split; [intros H; injection H as <-; split; [intros ? []|auto]|intros [_ ->]; auto].
  - destruct (np_shape x) as [u|] eqn:E.
    + destruct (nats_eqb u t) eqn:Q.
      * apply nats_eqb_eq in Q. subst u. rewrite IH. rewrite <- plus_n_Sm. cbn. split; intros [A ->]; split; auto. intros y [<-|Hy]; auto.
      * split; [discriminate|]. intros [A _]. specialize (A x (or_introl eq_refl)). rewrite E in A. injection A as ->.
        assert (nats_eqb t t = true) by (apply nats_eqb_eq; auto). congruence.
    + split; [discriminate|]. intros [A _]. specialize (A x (or_introl eq_refl)). congruence.
Qed.
Lemma shape_list_spec l s : np_shape (PList l) = Some s <->
  (l = [] /\ s = [O]) \/ (l <> [] /\ exists t, (forall x, In x l -> np_shape x = Some t) /\ s = length l :: t).
Proof.
  rewrite np_shape_list. destruct l as [|x l]; cbn [rows].
  - split; [intros H; injection H as <-; auto|intros [[_ ->]|[H _]]; congruence].
  - destruct (np_shape x) as [u|] eqn:E.
    + rewrite rows_some. cbn. split.
      * intros [A ->]. right. split; [discriminate|]. exists u. split; auto. intros y [<-|Hy]; auto.
      * intros [[H _]|(_ & t & A & ->)]; [discriminate|]. assert (u = t) by (specialize (A x (or_introl eq_refl)); congruence). subst. split; auto.
    + split; [discriminate|]. intros [[H _]|(_ & t & A & _)]; [discriminate|]. specialize (A x (or_introl eq_refl)). congruence.
Qed.
Definition scalar (v : pyval) : Prop := forall l, v <> PList l.
Lemma shape_scalar v : np_shape v = Some [] <-> scalar v.
Proof.
  destruct v; try (split; [intros _ l'; discriminate|reflexivity]).
  rewrite shape_list_spec. split.
  - intros [[_ H]|(_ & t & _ & H)]; discriminate.
  - intros H. exfalso. apply (H l). reflexivity.
Qed.
Lemma shape_row v n : np_shape v = Some [n] <-> exists l, v = PList l /\ length l = n /\ forall x, In x l -> scalar x.
Proof.
  split.
  - destruct v; try discriminate. rewrite shape_list_spec. intros [[-> H]|(_ & t & A & H)].
    + exists []. repeat split; [cbn; congruence|intros ? []].
    + injection H as -> <-. exists l. repeat split; auto. intros x Hx. apply shape_scalar. auto.
  - intros (l & -> & <- & S1). apply shape_list_spec. destruct l as [|x l]; [left; auto|]. right. split; [discriminate|]. exists []. split; auto.
    intros y Hy. apply shape_scalar. auto.
Qed.
Lemma shape_2d v n : np_shape v = Some [n; 3%nat] <->
  exists l, v = PList l /\ length l = n /\ l <> [] /\ forall r, In r l -> exists a b c, r = PList [a; b; c] /\ scalar a /\ scalar b /\ scalar c.
Proof.
  split.
  - destruct v; try discriminate. rewrite shape_list_spec. intros [[_ H]|(N & t & A & H)]; [discriminate|]. injection H as -> <-.
    exists l. repeat split; auto. intros r Hr. specialize (A r Hr). apply shape_row in A. destruct A as (q & -> & L & S1).
    destruct q as [|a [|b [|c [|d q]]]]; try discriminate. exists a, b, c. repeat split; apply S1; cbn; auto.
  - intros (l & -> & <- & N & A). apply shape_list_spec. right. split; auto. exists [3%nat]. split; auto.
    intros r Hr. destruct (A r Hr) as (a & b & c & -> & S1 & S2 & S3). apply shape_row. exists [a; b; c]. repeat split; auto. intros x [<-|[<-|[<-|[]]]]; auto.
Qed.

(* ---------- strings ---------- *)
Lemma prefix_spec a s : prefix a s = true <-> exists b, s = (a ++ b)%string.
Proof.
  split.
  - revert s. induction a as [|c a IH]; intros s H; [exists s; reflexivity|].
    destruct s as [|d s]; [discriminate|]. cbn in H. destruct (ascii_dec c d); [|discriminate]. subst. destruct (IH _ H) as [b ->]. exists b; reflexivity.
  - intros [b ->]. induction a as [|c a IH]; cbn; [destruct b; reflexivity|]. destruct (ascii_dec c c); [auto|congruence].
Qed.
Lemma contains_spec a s : contains a s = true <-> exists p q, s = (p ++ a ++ q)%string.
Proof.
  split.
  - induction s as [|c s IH]; cbn [contains]; intros H; apply orb_true_iff in H; destruct H as [H|H].
    + apply prefix_spec in H. destruct H as [b Hb]. exists "", b. exact Hb.
    + discriminate.
    + apply prefix_spec in H. destruct H as [b Hb]. exists "", b. exact Hb.
    + destruct (IH H) as (p & q & ->). exists (String c p), q. reflexivity.
  - intros (p & q & ->). induction p as [|c p IH]; cbn [append].
    + assert (prefix a (a ++ q) = true) by (apply prefix_spec; eauto).
      destruct (a ++ q)%string; cbn [contains]; rewrite H; reflexivity.
    + cbn [contains]. rewrite IH. apply orb_true_r.
Qed.
Lemma smap_app f a b : smap f (a ++ b)%string = (smap f a ++ smap f b)%string.
Proof. induction a; cbn; congruence. Qed.
Lemma lower_app a b : lower (a ++ b)%string = (lower a ++ lower b)%string.
Proof. apply smap_app. Qed.
Lemma smap_len f s : String.length (smap f s) = String.length s.
Proof. induction s; cbn; congruence. Qed.
Lemma lower_ascii_idem c : lower_ascii (lower_ascii c) = lower_ascii c.
Proof. destruct c as [[] [] [] [] [] [] [] []]; reflexivity. Qed.
Lemma lower_idem s : lower (lower s) = lower s.
Proof. unfold lower. induction s; cbn; [auto|rewrite lower_ascii_idem; congruence]. Qed.

(* ---------- deduction of species ---------- *)
Definition occurs (t name : string) : Prop := exists p q, lower name = (p ++ lower t ++ q)%string.
Lemma occurs_spec t n : contains (lower t) (lower n) = true <-> occurs t n.
Proof. apply contains_spec. Qed.
Lemma occurs_dec t n : {occurs t n} + {~ occurs t n}.
Proof. destruct (contains (lower t) (lower n)) eqn:E; [left|right]; rewrite <- occurs_spec; congruence. Qed.

(* deduce: first two-letter species that occurs, else the last one that occurs, else the start value *)
Lemma deduce_spec name table : forall cur,
  (exists t1 s t2, table = t1 ++ s :: t2 /\ occurs s name /\ String.length s = 2%nat /\
     (forall x, In x t1 -> occurs x name -> String.length x <> 2%nat) /\ deduce name cur table = s) \/
  ((forall x, In x table -> occurs x name -> String.length x <> 2%nat) /\
   ((exists t1 s t2, table = t1 ++ s :: t2 /\ occurs s name /\ (forall x, In x t2 -> ~ occurs x name) /\ deduce name cur table = s) \/
    ((forall x, In x table -> ~ occurs x name) /\ deduce name cur table = cur))).
Proof.
  induction table as [|t table IH]; intros cur; cbn [deduce].
  - right. split; [intros ? []|]. right. split; [intros ? []|auto].
  - destruct (contains (lower t) (lower name)) eqn:E.
    + apply occurs_spec in E. destruct (Nat.eqb (String.length t) 2) eqn:L.
      * apply Nat.eqb_eq in L. left. exists [], t, table. repeat split; auto.
      * apply Nat.eqb_neq in L. destruct (IH t) as [(t1 & s & t2 & -> & O & L2 & F & D)|(N & [(t1 & s & t2 & -> & O & F & D)|[F D]])].
        -- left. exists (t :: t1), s, t2. repeat split; auto. intros x [<-|Hx]; auto.
        -- right. split; [intros x [<-|Hx]; auto|]. left. exists (t :: t1), s, t2. repeat split; auto.
        -- right. split; [intros x [<-|Hx]; auto|]. left. exists [], t, table. repeat split; auto.
    + assert (NO : ~ occurs t name) by (rewrite <- occurs_spec; congruence).
      destruct (IH cur) as [(t1 & s & t2 & -> & O & L2 & F & D)|(N & [(t1 & s & t2 & -> & O & F & D)|[F D]])].
      * left. exists (t :: t1), s, t2. repeat split; auto. intros x [<-|Hx]; [contradiction|auto].
      * right. split; [intros x [<-|Hx]; [contradiction|auto]|]. left. exists (t :: t1), s, t2. repeat split; auto.
      * right. split; [intros x [<-|Hx]; [contradiction|auto]|]. right. split; [intros x [<-|Hx]; auto|auto].
Qed.
Lemma deduce_ext n m : lower n = lower m -> forall table cur, deduce n cur table = deduce m cur table.
Proof. intros E. induction table as [|t table IH]; intros cur; cbn [deduce]; [auto|]. rewrite E, !IH. reflexivity. Qed.

(* the table *)
Definition letter (c : ascii) : bool :=
  let n := nat_of_ascii c in (Nat.leb 65 n && Nat.leb n 90) || (Nat.leb 97 n && Nat.leb n 122).
Fixpoint all_letters (s : string) : bool := match s with EmptyString => true | String c s' => letter c && all_letters s' end.
Fixpoint no_letters (s : string) : bool := match s with EmptyString => true | String c s' => negb (letter c) && no_letters s' end.
Lemma table_lengths t : In t ATOM_SPECIES -> (String.length t = 1%nat \/ String.length t = 2%nat) /\ all_letters (lower t) = true.
Proof.
  assert (H : forallb (fun t => (Nat.eqb (String.length t) 1 || Nat.eqb (String.length t) 2) && all_letters (lower t)) ATOM_SPECIES = true) by (vm_compute; reflexivity).
  rewrite forallb_forall in H. intros Ht. specialize (H t Ht). apply andb_true_iff in H. destruct H as [A B]. split; auto.
  apply orb_true_iff in A. rewrite !Nat.eqb_eq in A. exact A.
Qed.
Lemma table_nodup : NoDup ATOM_SPECIES.
Proof.
  assert (H : nodup string_dec ATOM_SPECIES = ATOM_SPECIES) by (vm_compute; reflexivity).
  rewrite <- H. apply NoDup_nodup.
Qed.
Lemma table_no_X : ~ In "X" ATOM_SPECIES.
Proof. rewrite <- mem_false. vm_compute. reflexivity. Qed.
Lemma table_lower_inj a b : In a ATOM_SPECIES -> In b ATOM_SPECIES -> lower a = lower b -> a = b.
Proof.
  assert (H : forallb (fun a => forallb (fun b => negb (String.eqb (lower a) (lower b)) || String.eqb a b) ATOM_SPECIES) ATOM_SPECIES = true) by (vm_compute; reflexivity).
  rewrite forallb_forall in H. intros Ha Hb E. specialize (H a Ha). rewrite forallb_forall in H. specialize (H b Hb).
  rewrite (proj2 (String.eqb_eq _ _) E) in H. cbn in H. apply String.eqb_eq. exact H.
Qed.
Lemma deduce_cases name : let s := deduce name "X" ATOM_SPECIES in
  (In s ATOM_SPECIES /\ occurs s name /\ s <> "X") \/ (s = "X" /\ forall t, In t ATOM_SPECIES -> ~ occurs t name).
Proof.
  cbn zeta. assert (NX : forall s, In s ATOM_SPECIES -> s <> "X") by (intros s Hs ->; exact (table_no_X Hs)).
  destruct (deduce_spec name ATOM_SPECIES "X") as [(t1 & s & t2 & T & O & L2 & F & D)|(N & [(t1 & s & t2 & T & O & F & D)|[F D]])].
  - left. rewrite D. assert (I : In s ATOM_SPECIES) by (rewrite T; apply in_elt). auto.
  - left. rewrite D. assert (I : In s ATOM_SPECIES) by (rewrite T; apply in_elt). auto.
  - right. auto.
Qed.

(* letters surrounded by other characters *)
Lemma lower_letter c : letter (lower_ascii c) = letter c.
Proof. destruct c as [[] [] [] [] [] [] [] []]; reflexivity. Qed.
Lemma lower_no_letters s : no_letters (lower s) = no_letters s.
Proof. unfold lower. induction s; cbn; [auto|]. rewrite lower_letter. congruence. Qed.
Lemma prefix_letters a : forall m s, all_letters a = true -> no_letters s = true -> prefix a (m ++ s) = true -> prefix a m = true.
Proof.
  induction a as [|c a IH]; intros m s A N H; [destruct m; reflexivity|]. destruct m as [|d m]; cbn [append] in H.
  - destruct s as [|d s]; [discriminate|]. cbn in *. destruct (ascii_dec c d); [|discriminate]. subst.
    apply andb_true_iff in A. apply andb_true_iff in N. destruct A as [A _], N as [N _]. rewrite A in N. discriminate.
  - cbn in *. destruct (ascii_dec c d); [|discriminate]. apply andb_true_iff in A. apply (IH m s); tauto.
Qed.
Lemma contains_suffix a m s : a <> "" -> all_letters a = true -> no_letters s = true -> contains a (m ++ s) = true -> contains a m = true.
Proof.
  intros NE A N. induction m as [|d m IH]; intros H.
  - cbn [append] in H. exfalso. induction s as [|c s IHs]; cbn [contains] in H.
    + rewrite orb_false_r in H. destruct a; [congruence|discriminate].
    + apply orb_true_iff in H. destruct H as [H|H].
      * apply (prefix_letters a "" (String c s)) in H; auto. destruct a; [congruence|discriminate].
      * apply IHs; auto. cbn in N. apply andb_true_iff in N. tauto.
  - cbn [append contains] in *. apply orb_true_iff in H. destruct H as [H|H].
    + rewrite (prefix_letters a (String d m) s A N H). reflexivity.
    + rewrite (IH H). apply orb_true_r.
Qed.
Lemma contains_prefix a p m : a <> "" -> all_letters a = true -> no_letters p = true -> contains a (p ++ m) = true -> contains a m = true.
Proof.
  intros NE A. induction p as [|d p IH]; intros N H; [exact H|]. cbn in N. apply andb_true_iff in N. destruct N as [N1 N2].
  cbn [append contains] in H. apply orb_true_iff in H. destruct H as [H|H]; [|auto].
  exfalso. destruct a as [|c a]; [congruence|]. cbn in H, A. destruct (ascii_dec c d); [|discriminate]. subst.
  apply andb_true_iff in A. destruct A as [A _]. rewrite A in N1. discriminate.
Qed.
Lemma string_len_app a b : String.length (a ++ b)%string = (String.length a + String.length b)%nat.
Proof. induction a; cbn; congruence. Qed.
Lemma len0 s : String.length s = O -> s = "".
Proof. destruct s; [auto|discriminate]. Qed.
Lemma contains_same_len a m : String.length a = String.length m -> contains a m = true -> a = m.
Proof.
  intros L H. apply contains_spec in H. destruct H as (p & q & ->). rewrite !string_len_app in L.
  rewrite (len0 p), (len0 q) by lia. cbn. rewrite app_str_nil. reflexivity.
Qed.
Lemma deduce_decorated p t s : In t ATOM_SPECIES -> no_letters p = true -> no_letters s = true ->
  deduce (p ++ t ++ s)%string "X" ATOM_SPECIES = t.
Proof.
  intros Ht Np Ns. set (name := (p ++ t ++ s)%string).
  assert (Only : forall x, In x ATOM_SPECIES -> occurs x name -> contains (lower x) (lower t) = true).
  { intros x Hx O. apply occurs_spec in O. destruct (table_lengths x Hx) as [Lx Ax].
    assert (NE : lower x <> "") by (intros E; pose proof (f_equal String.length E) as Q; unfold lower in Q; rewrite smap_len in Q; cbn in Q; lia).
    unfold name in O. rewrite !lower_app in O. apply contains_prefix in O; auto; [|rewrite lower_no_letters; auto].
    apply contains_suffix in O; auto. rewrite lower_no_letters; auto. }
  assert (Ot : occurs t name).
  { exists (lower p), (lower s). unfold name. rewrite !lower_app. reflexivity. }
  destruct (table_lengths t Ht) as [Lt _].
  assert (Le : forall x, In x ATOM_SPECIES -> occurs x name -> String.length x = String.length t -> x = t).
  { intros x Hx O L. apply table_lower_inj; auto. apply contains_same_len; [unfold lower; rewrite !smap_len; auto|apply Only; auto]. }
  destruct (deduce_spec name ATOM_SPECIES "X") as [(t1 & x & t2 & T & O & L2 & F & D)|(N & [(t1 & x & t2 & T & O & F & D)|[F D]])].
  - rewrite D. assert (Hx : In x ATOM_SPECIES) by (rewrite T; apply in_elt).
    apply Le; auto. destruct Lt as [Lt|Lt]; [|congruence]. exfalso.
    pose proof (Only x Hx O) as C. apply contains_spec in C. destruct C as (u & v & C). pose proof (f_equal String.length C) as Q.
    rewrite !string_len_app in Q. unfold lower in Q. rewrite !smap_len in Q. lia.
  - rewrite D. assert (Hx : In x ATOM_SPECIES) by (rewrite T; apply in_elt). apply Le; auto.
    pose proof (N x Hx O). pose proof (N t Ht Ot). destruct (table_lengths x Hx) as [Lx _]. lia.
  - exfalso. apply (F t); auto.
Qed.

(* ---------- appended decimal numbers ---------- *)
Definition digit (c : ascii) : bool := Nat.leb 48 (nat_of_ascii c) && Nat.leb (nat_of_ascii c) 57.
Fixpoint ends_with_digit (s : string) : bool :=
  match s with EmptyString => false | String c EmptyString => digit c | String _ s' => ends_with_digit s' end.
Fixpoint all_digits (s : string) : bool := match s with EmptyString => true | String c s' => digit c && all_digits s' end.
Lemma ends_app a b : b <> "" -> ends_with_digit (a ++ b)%string = ends_with_digit b.
Proof.
  intros NE. induction a as [|c a IH]; [reflexivity|]. cbn [append ends_with_digit]. rewrite IH.
  destruct (a ++ b)%string eqn:E; [|reflexivity]. destruct a; cbn in E; [congruence|discriminate].
Qed.
Lemma all_digits_ends b : b <> "" -> all_digits b = true -> ends_with_digit b = true.
Proof.
  induction b as [|c b IH]; [congruence|]. intros _ H. cbn in H. apply andb_true_iff in H. destruct H as [A B].
  destruct b as [|d b]; [exact A|]. cbn [ends_with_digit]. apply IH; [discriminate|auto].
Qed.
Lemma dec_all_digits n : all_digits (dec n) = true.
Proof.
  pose proof (dec_digits n) as H. revert H. generalize (dec n). induction s as [|c s IH]; intros H; [reflexivity|].
  cbn in *. destruct H as [A B]. rewrite IH by auto. unfold digit. destruct (Nat.leb_spec 48 (nat_of_ascii c)); [|lia].
  destruct (Nat.leb_spec (nat_of_ascii c) 57); [reflexivity|lia].
Qed.
Lemma ends_dec a n : ends_with_digit (a ++ dec n)%string = true.
Proof. rewrite ends_app by apply dec_nonempty. apply all_digits_ends; [apply dec_nonempty|apply dec_all_digits]. Qed.
Lemma digits_suffix_unique a : forall b x y, ends_with_digit a = false -> ends_with_digit b = false ->
  all_digits x = true -> all_digits y = true -> (a ++ x = b ++ y)%string -> a = b /\ x = y.
Proof.
  induction a as [|c a IH]; intros b x y Ea Eb Hx Hy E; cbn [append] in E.
  - destruct b as [|d b]; [auto|]. exfalso. subst x.
    assert (AB : all_digits (String d b) = true).
    { revert Hx. clear. generalize (String d b). induction s as [|e s IH]; cbn; [auto|]. intros H. apply andb_true_iff in H. destruct H as [A B]. rewrite A, IH; auto. }
    rewrite (all_digits_ends (String d b)) in Eb; [discriminate|discriminate|auto].
  - destruct b as [|d b]; cbn [append] in E.
    + exfalso. subst y.
      assert (AB : all_digits (String c a) = true).
      { revert Hy. clear. change (String c (a ++ x)) with (String c a ++ x)%string. generalize (String c a). induction s as [|e s IH]; cbn; [auto|]. intros H. apply andb_true_iff in H. destruct H as [A B]. rewrite A, IH; auto. }
      rewrite (all_digits_ends (String c a)) in Ea; [discriminate|discriminate|auto].
    + injection E as -> E.
      assert (Ea' : ends_with_digit a = false) by (destruct a; [reflexivity|exact Ea]).
      assert (Eb' : ends_with_digit b = false) by (destruct b; [reflexivity|exact Eb]).
      destruct (IH b x y Ea' Eb' Hx Hy E) as [-> ->]. auto.
Qed.

(* ---------- sorting ---------- *)
Lemma str_ltb_irrefl a : str_ltb a a = false.
Proof. induction a; cbn [str_ltb]; [auto|]. rewrite Nat.ltb_irrefl, Ascii.eqb_refl. auto. Qed.
Lemma str_ltb_trans a : forall b c, str_ltb a b = true -> str_ltb b c = true -> str_ltb a c = true.
Proof.
  induction a as [|x a IH]; intros [|y b] [|z c]; cbn [str_ltb]; intros H1 H2; auto; try discriminate.
  destruct (Nat.ltb_spec (nat_of_ascii x) (nat_of_ascii y)), (Nat.ltb_spec (nat_of_ascii y) (nat_of_ascii z)),
    (Nat.ltb_spec (nat_of_ascii x) (nat_of_ascii z)); auto; try lia.
  - destruct (Ascii.eqb_spec y z); [subst; lia|discriminate].
  - destruct (Ascii.eqb_spec x y); [subst; lia|discriminate].
  - destruct (Ascii.eqb_spec x y); [|discriminate]. destruct (Ascii.eqb_spec y z); [|discriminate]. subst. rewrite Ascii.eqb_refl. eauto.
Qed.
Lemma str_ltb_total a : forall b, a <> b -> str_ltb a b = true \/ str_ltb b a = true.
Proof.
  induction a as [|x a IH]; intros [|y b] N; cbn [str_ltb]; auto; try congruence.
  destruct (Nat.ltb_spec (nat_of_ascii x) (nat_of_ascii y)), (Nat.ltb_spec (nat_of_ascii y) (nat_of_ascii x)); auto; try lia.
  assert (x = y). { rewrite <- (ascii_nat_embedding x), <- (ascii_nat_embedding y). f_equal. lia. }
  subst. rewrite Ascii.eqb_refl. apply IH. congruence.
Qed.
Lemma insert_in x l y : In y (insert_str x l) <-> y = x \/ In y l.
Proof. induction l as [|z l IH]; cbn; [intuition|]. destruct (str_ltb x z); cbn; rewrite ?IH; intuition. Qed.
Inductive increasing : list string -> Prop :=
| inc_nil : increasing []
| inc_cons x l : (forall y, In y l -> str_ltb x y = true) -> increasing l -> increasing (x :: l).
Lemma insert_increasing x l : ~ In x l -> increasing l -> increasing (insert_str x l).
Proof.
  intros N H. induction H as [|z l Hz Hl IH]; cbn; [repeat constructor; intros ? []|].
  destruct (str_ltb x z) eqn:E.
  - constructor; [|constructor; auto]. intros y [<-|Hy]; [auto|]. eapply str_ltb_trans; eauto.
  - constructor; [|apply IH; cbn in N; tauto]. intros y Hy. apply insert_in in Hy. destruct Hy as [->|Hy]; auto.
    destruct (str_ltb_total x z) as [Q|Q]; [intros ->; apply N; cbn; auto|congruence|auto].
Qed.
Lemma sorted_set_spec l : increasing (sorted_set l) /\ forall x, In x (sorted_set l) <-> In x l.
Proof.
  unfold sorted_set.
  assert (G : forall m, NoDup m -> increasing (fold_right insert_str [] m) /\ forall x, In x (fold_right insert_str [] m) <-> In x m).
  { induction m as [|y m IH]; intros N; [split; [constructor|cbn; tauto]|]. inversion N; subst. destruct IH as [A B]; auto.
    cbn [fold_right]. split; [apply insert_increasing; [rewrite B; auto|auto]|]. intros x. rewrite insert_in, B. cbn. intuition. }
  destruct (G (nodup string_dec l) (NoDup_nodup _ _)) as [A B]. split; auto. intros x. rewrite B. apply nodup_In.
Qed.
Lemma increasing_nodup l : increasing l -> NoDup l.
Proof. induction 1; constructor; auto. intros Hx. specialize (H _ Hx). rewrite str_ltb_irrefl in H. discriminate. Qed.
Lemma increasing_unique l : forall m, increasing l -> increasing m -> (forall x, In x l <-> In x m) -> l = m.
Proof.
  induction l as [|x l IH]; intros [|y m] Hl Hm E; auto.
  - exfalso. apply (E y). cbn; auto.
  - exfalso. apply (E x). cbn; auto.
  - inversion Hl; subst. inversion Hm; subst.
    assert (x = y).
    { destruct (proj1 (E x) (or_introl eq_refl)) as [?|Hx]; [auto|]. destruct (proj2 (E y) (or_introl eq_refl)) as [?|Hy]; [auto|].
      pose proof (H1 _ Hy) as Q1. pose proof (H3 _ Hx) as Q2. pose proof (str_ltb_trans _ _ _ Q1 Q2) as Q. rewrite str_ltb_irrefl in Q. discriminate. }
    subst y. f_equal. apply IH; auto. intros z. split; intros Hz.
    + destruct (proj1 (E z) (or_intror Hz)) as [<-|?]; auto. specialize (H1 _ Hz). rewrite str_ltb_irrefl in H1. discriminate.
    + destruct (proj2 (E z) (or_intror Hz)) as [<-|?]; auto. specialize (H3 _ Hz). rewrite str_ltb_irrefl in H3. discriminate.
Qed.
Lemma enum_dict_lookup l : forall i k x, NoDup l -> nth_error l k = Some x -> lookup x (enum_dict l i) = Some (Z.of_nat (i + k + 1)).
Proof.
  induction l as [|y l IH]; intros i k x N H; [destruct k; discriminate|]. inversion N; subst. cbn [enum_dict lookup].
  destruct k as [|k]; cbn in H.
  - injection H as ->. rewrite String.eqb_refl. rewrite Nat.add_0_r. reflexivity.
  - destruct (String.eqb_spec x y); [subst; apply nth_error_In in H; contradiction|]. rewrite (IH (S i) k x); auto. f_equal. lia.
Qed.
