(* P_Sugar.v : property C31 *)
From Verif Require Import Base M_Strings M_Dict F_Strings M_Sugar.
Open Scope string_scope.
Open Scope list_scope.

Lemma copy_items_id d : NoDup (keys d) -> copy_items d = d.
Proof.
  intros N. unfold copy_items.
  assert (G : forall (l : dict ref) acc, NoDup (keys acc ++ keys l) -> (forall k v, In (k, v) l -> lookup k d = Some v) ->
     fold_left (fun dst k => match lookup k d with Some v => setitem k v dst | None => dst end) (keys l) acc = acc ++ l).
  { induction l as [|[k v] l IH]; intros acc N' H; cbn [keys map fold_left fst]; [rewrite app_nil_r; auto|].
    rewrite (H k v (or_introl eq_refl)).
    assert (E : setitem k v acc = acc ++ [(k, v)]).
    { cbn [keys map fst] in N'. assert (Nk : ~ In k (keys acc)).
      { intros I. apply NoDup_remove_2 in N'. apply N'. apply in_or_app. auto. }
      clear - Nk. induction acc as [|[a b] acc IH]; cbn; [reflexivity|]. cbn in Nk. destruct (String.eqb_spec k a); [subst; tauto|]. rewrite IH; tauto. }
    change (map fst l) with (keys l). rewrite E, IH, <- app_assoc; [reflexivity| |intros; apply H; right; auto].
    unfold keys in *. rewrite map_app, <- app_assoc. exact N'. }
  rewrite (G d []); auto. intros k v I. clear G.
  induction d as [|[a b] d IH]; [destruct I|]. cbn in N. inversion N; subst. cbn [lookup]. destruct I as [E|I].
  - injection E as -> ->. rewrite String.eqb_refl. reflexivity.
  - destruct (String.eqb_spec k a); [|auto]. subst. exfalso. apply H1. apply in_map_iff. exists (a, v). auto.
Qed.

(* the dictionary stored in an object *)
Definition content (h : heap) (o : ref) : option (dict ref) :=
  match nth_error h o with Some (Plain d) | Some (Sugar d) => Some d | _ => None end.

(* add_sugar, remove_sugar: a new object with the same references under the same keys in the same
   order; nothing else changes. *)
Theorem C31_round_trip : forall h o d, content h o = Some d -> NoDup (keys d) ->
  exists h1 c, add_sugar h o = Ok (h1, c) /\ nth_error h1 c = Some (Sugar d) /\ c <> o /\
    (forall p, (p < length h)%nat -> nth_error h1 p = nth_error h p) /\
  exists h2 e, remove_sugar h1 c = Ok (h2, e) /\ nth_error h2 e = Some (Plain d) /\ e <> o /\ e <> c /\
    (forall p, (p < length h1)%nat -> nth_error h2 p = nth_error h1 p).
Proof.
  intros h o d C N. assert (L : (o < length h)%nat).
  { apply nth_error_Some. unfold content in C. destruct (nth_error h o); congruence. }
  exists (h ++ [Sugar d]), (length h).
  assert (A : add_sugar h o = Ok (h ++ [Sugar d], length h)).
  { unfold add_sugar, content in *. destruct (nth_error h o) as [[x|x|]|]; try discriminate; injection C as ->; rewrite copy_items_id; auto. }
  assert (Q : nth_error (h ++ [Sugar d]) (length h) = Some (Sugar d)) by (rewrite nth_error_app2, Nat.sub_diag by lia; reflexivity).
  split; [exact A|]. split; [exact Q|]. split; [lia|]. split; [intros p Hp; apply nth_error_app1; auto|].
  exists ((h ++ [Sugar d]) ++ [Plain d]), (length (h ++ [Sugar d])).
  split; [unfold remove_sugar; rewrite Q, copy_items_id; auto|].
  split; [rewrite nth_error_app2, Nat.sub_diag by lia; reflexivity|].
  rewrite app_length. cbn [length]. split; [lia|]. split; [lia|]. intros p Hp. apply nth_error_app1. rewrite app_length. exact Hp.
Qed.
Print Assumptions C31_round_trip.

Theorem C31_not_a_dict : forall h o, content h o = None -> add_sugar h o = Err ValueError /\ remove_sugar h o = Err ValueError.
Proof. intros h o. unfold content, add_sugar, remove_sugar. destruct (nth_error h o) as [[x|x|]|]; try discriminate; auto. Qed.
Print Assumptions C31_not_a_dict.

(* an outcome of attribute access and the one of item access *)
Definition same_outcome (o : op) (a b : outcome) : Prop :=
  match o with
  | Get _ => a = b /\ b <> OExc KeyError \/ (a = OExc AttributeError /\ b = OExc KeyError)
  | _ => a = b
  end.
(* the methods of dict, and names with two underscores in front *)
Definition dict_methods : list string :=
  ["clear"; "copy"; "fromkeys"; "get"; "items"; "keys"; "pop"; "popitem"; "setdefault"; "update"; "values"].
Definition free_name (k : string) : Prop := String.prefix "__" k = false /\ ~ In k dict_methods.
Definition reads_only_free_names (l : list op) : Prop := forall k, In (Get k) l -> free_name k.
Lemma free_name_mem k : free_name k -> mem k class_attributes = false.
Proof.
  intros [P M]. apply mem_false. intros I. cbn [In class_attributes] in I.
  repeat (destruct I as [<-|I]; [try (cbn in P; discriminate); exfalso; apply M; cbn; tauto|]). destruct I.
Qed.

Theorem C31_attributes_are_items : forall l d, reads_only_free_names l ->
  fst (run attr_step d l) = fst (run item_step d l) /\
  forall i o, nth_error l i = Some o -> exists a b, nth_error (snd (run attr_step d l)) i = Some a /\ nth_error (snd (run item_step d l)) i = Some b /\ same_outcome o a b.
Proof.
  induction l as [|o l IH]; intros d F; cbn [run].
  - split; [reflexivity|]. intros [|i] o H; discriminate.
  - assert (F' : reads_only_free_names l) by (intros k Hk; apply F; right; auto).
    assert (S1 : fst (attr_step d o) = fst (item_step d o) /\ same_outcome o (snd (attr_step d o)) (snd (item_step d o))).
    { destruct o as [k|k v|k]; cbn [attr_step item_step fst snd same_outcome].
      - split; auto. assert (M : mem k class_attributes = false) by (apply free_name_mem, F; left; auto). rewrite M.
        destruct (lookup k d); [left; split; [auto|discriminate]|right; auto].
      - auto.
      - destruct (lookup k d); auto. }
    destruct (attr_step d o) as [d1 a], (item_step d o) as [d2 b]. cbn [fst snd] in S1. destruct S1 as [<- S1].
    destruct (IH d1 F') as [A B]. destruct (run attr_step d1 l) as [e1 r1], (run item_step d1 l) as [e2 r2]. cbn [fst snd] in *.
    split; [auto|]. intros [|i] q H; cbn in H; [injection H as <-; exists a, b; auto|]. apply B. exact H.
Qed.
Print Assumptions C31_attributes_are_items.

(* The state always follows the item operations, even for shadowed names... *)
Theorem C31_state_follows : forall l d, fst (run attr_step d l) = fst (run item_step d l).
Proof.
  induction l as [|o l IH]; intros d; cbn [run]; [reflexivity|].
  assert (S1 : fst (attr_step d o) = fst (item_step d o)) by (destruct o; cbn; try destruct (lookup k d); reflexivity).
  destruct (attr_step d o) as [d1 a], (item_step d o) as [d2 b]. cbn [fst] in S1. subst d2. specialize (IH d1).
  destruct (run attr_step d1 l), (run item_step d1 l). exact IH.
Qed.
Print Assumptions C31_state_follows.
(* ... but a value stored under the name of a dict method cannot be read back as an attribute. *)
Theorem C31_methods_stay : forall k d, In k dict_methods -> attr_step d (Get k) = (d, OMethod k).
Proof.
  intros k d I. cbn [attr_step]. cbn [In dict_methods] in I. repeat (destruct I as [<-|I]; [reflexivity|]). destruct I.
Qed.
Print Assumptions C31_methods_stay.
Theorem C31_shadowed_refuted : exists d k v, snd (run attr_step d [Put k v; Get k]) <> [ODone; OValue v].
Proof. exists [], "values", 7%nat. cbn. discriminate. Qed.
Example C31_case : snd (run attr_step [] [Put "names" 1%nat; Get "names"; Del "names"; Get "names"; Del "names"]) =
  [ODone; OValue 1%nat; ODone; OExc AttributeError; OExc KeyError].
Proof. reflexivity. Qed.

(* Copies are independent: no history on the candy touches any other object. *)
Lemma set_nth_other {A} (l : list A) : forall i p x, p <> i -> nth_error (set_nth l i x) p = nth_error l p.
Proof. induction l as [|y l IH]; intros [|i] [|p] x N; cbn; auto; congruence. Qed.
Theorem C31_copy_is_independent : forall h o h1 c ops p, add_sugar h o = Ok (h1, c) -> (p < length h)%nat ->
  nth_error (fst (run_on h1 c ops)) p = nth_error h p.
Proof.
  intros h o h1 c ops p A L. assert (X : c = length h /\ nth_error h1 p = nth_error h p).
  { unfold add_sugar in A. destruct (nth_error h o) as [[x|x|]|]; try discriminate; injection A as <- <-; (split; [auto|apply nth_error_app1; auto]). }
  destruct X as [-> X]. unfold run_on. destruct (nth_error h1 (length h)) as [[d|d|]|]; auto. destruct (run attr_step d ops). cbn [fst].
  rewrite set_nth_other by lia. exact X.
Qed.
Print Assumptions C31_copy_is_independent.
