(* P_Case.v : property C27, what "in any case" means, written without the lower-casing of the model: 26 pairs of letters *)
From Verif Require Import Base M_Strings T_Atoms M_Atoms F_Atoms P_Atoms.
From Coq Require Import Ascii String List Bool.
Import ListNotations.
Open Scope string_scope.

(* ---- specification ---- *)
Definition letter_pairs : list (ascii * ascii) :=
  combine (list_ascii_of_string "ABCDEFGHIJKLMNOPQRSTUVWXYZ") (list_ascii_of_string "abcdefghijklmnopqrstuvwxyz").
Definition same_char (c d : ascii) : Prop := c = d \/ In (c, d) letter_pairs \/ In (d, c) letter_pairs.
Definition same_up_to_case (s t : string) : Prop := Forall2 same_char (list_ascii_of_string s) (list_ascii_of_string t).

(* ---- proofs ---- *)
Definition pair_in (c d : ascii) : bool := existsb (fun p => Ascii.eqb c (fst p) && Ascii.eqb d (snd p)) letter_pairs.
Lemma pair_in_spec c d : pair_in c d = true <-> In (c, d) letter_pairs.
Proof.
  unfold pair_in. rewrite existsb_exists. split.
  - intros ([x y] & I & E). apply andb_true_iff in E. destruct E as (E1 & E2). apply Ascii.eqb_eq in E1, E2. cbn in E1, E2. subst. exact I.
  - intros I. exists (c, d). split; [exact I|]. cbn. rewrite !Ascii.eqb_refl. reflexivity.
Qed.
Definition all_chars : list ascii := map ascii_of_nat (seq 0 256).
Lemma in_all c : In c all_chars.
Proof.
  unfold all_chars. rewrite <- (ascii_nat_embedding c). apply in_map, in_seq. split; [apply Nat.le_0_l|]. apply nat_ascii_bounded.
Qed.
Lemma table_of_pairs : forallb (fun c => forallb (fun d => Bool.eqb (Ascii.eqb (lower_ascii c) (lower_ascii d)) (Ascii.eqb c d || pair_in c d || pair_in d c)) all_chars) all_chars = true.
Proof. vm_compute. reflexivity. Qed.
Lemma lower_char c d : lower_ascii c = lower_ascii d <-> same_char c d.
Proof.
  pose proof table_of_pairs as T. rewrite forallb_forall in T. specialize (T c (in_all c)). rewrite forallb_forall in T. specialize (T d (in_all d)).
  apply Bool.eqb_prop in T. unfold same_char. rewrite <- !pair_in_spec, <- Ascii.eqb_eq, T, !orb_true_iff, Ascii.eqb_eq. tauto.
Qed.

(* two strings have the same lower case exactly if they differ in the case of letters only *)
Theorem C27_lower : forall s t, lower s = lower t <-> same_up_to_case s t.
Proof.
  unfold lower, same_up_to_case. induction s as [|c s IH]; intros [|d t]; cbn.
  - split; auto.
  - split; [discriminate|inversion 1].
  - split; [discriminate|inversion 1].
  - split.
    + intros E. injection E as E1 E2. constructor; [apply lower_char, E1|apply IH, E2].
    + inversion 1; subst. f_equal; [apply lower_char; auto|apply IH; auto].
Qed.
Print Assumptions C27_lower.
Lemma smap_split f n : forall a b, smap f n = (a ++ b)%string -> exists x y, n = (x ++ y)%string /\ smap f x = a /\ smap f y = b.
Proof.
  induction n as [|c n IH]; intros a b E.
  - destruct a; [|discriminate]. cbn in E. exists "", "". cbn. auto.
  - destruct a as [|d a]; cbn in E.
    + exists "", (String c n). cbn. auto.
    + injection E as E1 E2. destruct (IH _ _ E2) as (x & y & -> & <- & <-). exists (String c x), y. cbn. rewrite E1. auto.
Qed.
(* a symbol occurs in a name if a piece of the name is the symbol, up to case *)
Theorem C27_occurs : forall t name, occurs t name <-> exists p m q, name = (p ++ m ++ q)%string /\ same_up_to_case m t.
Proof.
  intros t name. unfold occurs, lower. split.
  - intros (p & q & E). destruct (smap_split _ _ _ _ E) as (x & y & -> & _ & E2). destruct (smap_split _ _ _ _ E2) as (m & z & -> & E3 & _).
    exists x, m, z. split; [reflexivity|]. apply C27_lower. exact E3.
  - intros (p & m & q & -> & S). apply C27_lower in S. unfold lower in S. exists (smap lower_ascii p), (smap lower_ascii q). rewrite !smap_app, S. reflexivity.
Qed.
Print Assumptions C27_occurs.
(* names that differ only in the case of letters have the same species *)
Theorem C27_any_case : forall n m r, same_up_to_case n m -> get_atom_species n r = get_atom_species m r.
Proof. intros n m r S. apply C27_case_insensitive, C27_lower, S. Qed.
Print Assumptions C27_any_case.
(* a symbol in any case, without other letters around it, is recognised *)
Theorem C27_decorated_any_case : forall p t u s r, In t ATOM_SPECIES -> same_up_to_case u t -> no_letters p = true -> no_letters s = true ->
  get_atom_species (p ++ u ++ s)%string r = Ok t.
Proof.
  intros p t u s r I S P Q. rewrite <- (C27_decorated_symbol p t s r I P Q). apply C27_case_insensitive.
  apply C27_lower in S. rewrite !lower_app, S. reflexivity.
Qed.
Print Assumptions C27_decorated_any_case.
Example C27_any_case_case : same_up_to_case "zN_1" "Zn_1" /\ get_atom_species "ZN_1" true = Ok "Zn" /\ get_atom_species "zn_1" true = Ok "Zn" /\ ~ same_up_to_case "@" "`".
Proof.
  split; [apply C27_lower; vm_compute; reflexivity|]. split; [vm_compute; reflexivity|]. split; [vm_compute; reflexivity|].
  intros H. apply C27_lower in H. vm_compute in H. discriminate.
Qed.
