(* P_Helpers.v : properties C30, C34, C35 and C46 without three helpers of the model: the order of strings, the lower case of the name of a
   convention and the angle tolerance that stands in for the default of spglib *)
From Verif Require Import Base M_Strings T_Atoms M_Atoms F_Atoms P_Atoms P_Case M_Cell M_Spglib M_Conventional P_Conventional P_Monoclinic P_Poscar.
From Coq Require Import Ascii String List Bool Lra Lia.
Import ListNotations.
From Coq Require Import Sorted.
Open Scope string_scope.
Open Scope R_scope.

(* ---- specification ---- *)
(* the order of a dictionary: a proper beginning comes first, otherwise the first different character decides *)
Definition dictionary_before (a b : string) : Prop :=
  (exists c t, b = (a ++ String c t)%string) \/
  (exists p c s d t, a = (p ++ String c s)%string /\ b = (p ++ String d t)%string /\ (nat_of_ascii c < nat_of_ascii d)%nat).
(* the tolerance for angles that goes with spglib data: 1e-4 degrees in place of the default -1 *)
Definition angle_limit (d : spglib_data) (eps : R) : Prop :=
  (angle_tolerance d = -1 /\ eps = / 10000) \/ (angle_tolerance d <> -1 /\ eps = angle_tolerance d).

(* ---- proofs ---- *)
Lemma str_ltb_spec a : forall b, str_ltb a b = true <-> dictionary_before a b.
Proof.
  unfold dictionary_before. induction a as [|c a IH]; intros [|d b]; cbn [str_ltb].
  - split; [discriminate|]. intros [(c & t & H)|(p & c & s & d & t & H & _)]; [discriminate|destruct p; discriminate].
  - split; [|auto]. intros _. left. exists d, b. reflexivity.
  - split; [discriminate|]. intros [(e & t & H)|(p & e & s & f & t & _ & H & _)]; [discriminate|destruct p; discriminate].
  - destruct (Nat.ltb_spec (nat_of_ascii c) (nat_of_ascii d)) as [L|L].
    + split; [|auto]. intros _. right. exists "", c, a, d, b. auto.
    + destruct (Ascii.eqb_spec c d) as [->|N].
      * rewrite IH. split.
        -- intros [(e & t & ->)|(p & e & s & f & t & -> & -> & H)]; [left; exists e, t; reflexivity|]. right. exists (String d p), e, s, f, t. auto.
        -- intros [(e & t & H)|(p & e & s & f & t & H1 & H2 & H)].
           ++ injection H as ->. left. exists e, t. reflexivity.
           ++ destruct p as [|g p]; cbn in H1, H2; [assert (e = f) by congruence; subst f; lia|]. right. exists p, e, s, f, t. split; [congruence|]. split; [congruence|exact H].
      * split; [discriminate|]. intros [(e & t & H)|(p & e & s & f & t & H1 & H2 & H)].
        -- exfalso. apply N. cbn in H. congruence.
        -- destruct p as [|g p]; cbn in H1, H2; [assert (e = c) by congruence; assert (f = d) by congruence; subst; lia|exfalso; apply N; congruence].
Qed.
(* types are numbered in the order of a dictionary *)
Theorem C30_dictionary_order : forall ids ts i j x y t u, types_of ids = Ok ts ->
  nth_error ids i = Some x -> nth_error ids j = Some y -> nth_error ts i = Some t -> nth_error ts j = Some u ->
  ((t < u)%Z <-> dictionary_before x y).
Proof.
  intros ids ts i j x y t u E Hx Hy Ht Hu. destruct (C30_types_encode_identifiers ids) as (ts' & E' & _ & A & _). assert (ts' = ts) by congruence. subst ts'.
  rewrite <- str_ltb_spec. apply (A i j); auto.
Qed.
Print Assumptions C30_dictionary_order.
(* what the theorems about written files call alphabetical: no entry comes before an earlier one in a dictionary *)
Theorem C46_alphabetical : forall l, alphabetical l <->
  forall i j x y, (i < j)%nat -> nth_error l i = Some x -> nth_error l j = Some y -> ~ dictionary_before (fst y) (fst x).
Proof.
  unfold alphabetical. induction l as [|a l IH]; split.
  - intros _ [|i] j x y _ H; discriminate.
  - constructor.
  - intros S. inversion S as [|? ? S1 S2]; subst. intros [|i] [|j] x y L X Y; try lia.
    + cbn in X, Y. injection X as <-. rewrite Forall_forall in S2. apply nth_error_In in Y. specialize (S2 _ Y). rewrite <- str_ltb_spec, S2. discriminate.
    + apply (proj1 IH S1 i j x y); auto. lia.
  - intros H. constructor.
    + apply IH. intros i j x y L X Y. apply (H (S i) (S j)); auto. lia.
    + apply Forall_forall. intros y Y. apply In_nth_error in Y. destruct Y as (j & Y). specialize (H 0%nat (S j) a y ltac:(lia) eq_refl Y). rewrite <- str_ltb_spec in H. destruct (str_ltb (fst y) (fst a)); congruence.
Qed.
Print Assumptions C46_alphabetical.
Lemma limit_is d eps : angle_limit d eps -> eps = spglib_angle_or_default d.
Proof.
  unfold spglib_angle_or_default. intros [(A & ->)|(A & ->)].
  - rewrite (proj2 (Reqb_true _ _) A). reflexivity.
  - destruct (Reqb (angle_tolerance d) (-1)) eqn:E; [apply Reqb_true in E; contradiction|reflexivity].
Qed.
Lemma sc_name cv : same_up_to_case cv "SC" -> lower cv = "sc".
Proof. intros S. apply C27_lower in S. rewrite S. reflexivity. Qed.
(* the standard setting of monoclinic crystals, with the tolerance that the user asked for *)
Theorem C34_setting_in_tolerance : forall spglib cell atoms cv arg d eps c' new,
  obtain_data spglib cell atoms arg = Ok d -> crystal_family d = "m" -> same_up_to_case cv "SC" -> angle_limit d eps -> 0 <= eps ->
  get_conventional spglib cell atoms cv arg = Ok (c', new) ->
  exists p, get_params c' = Ok p /\ sc_monoclinic (centring_type d) eps p.
Proof.
  intros spglib cell atoms cv arg d eps c' new D F L A E H. apply limit_is in A. subst eps. eapply C34_standard_setting; eauto using sc_name.
Qed.
Print Assumptions C34_setting_in_tolerance.
(* and of triclinic crystals *)
Theorem C35_setting_in_tolerance : forall spglib cell atoms cv arg d eps,
  obtain_data spglib cell atoms arg = Ok d -> crystal_family d = "a" -> same_up_to_case cv "SC" -> angle_limit d eps -> 0 <= eps ->
  get_conventional spglib cell atoms cv arg <> Err PotentialBugError /\
  forall c' new, get_conventional spglib cell atoms cv arg = Ok (c', new) ->
    exists r p, get_reciprocal c' = Ok r /\ get_params r = Ok p /\ all_acute_or_none p /\ closest90 eps (pgamma p) (palpha p) (pbeta p).
Proof.
  intros spglib cell atoms cv arg d eps D F L A E. apply limit_is in A. subst eps. split.
  - eapply C35_sc_no_internal_error; eauto using sc_name.
  - intros c' new H. eapply C35_sc_setting; eauto using sc_name.
Qed.
Print Assumptions C35_setting_in_tolerance.
Example C30_dictionary_case : dictionary_before "Br" "Fe" /\ dictionary_before "C" "Cr" /\ dictionary_before "Zn" "a" /\ ~ dictionary_before "Fe" "Fe".
Proof. repeat split; rewrite <- ?str_ltb_spec; try (vm_compute; reflexivity). vm_compute. discriminate. Qed.
Example C34_limit_case : same_up_to_case "Sc" "SC" /\ forall d, angle_tolerance d = -1 -> angle_limit d (/ 10000) /\ 0 <= / 10000.
Proof. split; [apply C27_lower; reflexivity|]. intros d H. split; [left; auto|lra]. Qed.
