(* P_KpointsHeap.v : property C77, several Kpoints objects do not disturb each other *)
From Verif Require Import Base M_Strings M_Dict F_Strings M_Kpoints F_Voronoi F_Kpoints P_Kpoints M_KpointsHeap.
Open Scope R_scope.
Open Scope list_scope.

(* ---------------- specification ---------------- *)
(* the calls of a history on the i-th object, in order *)
Definition calls_on (i : nat) (h : list kcall) : list op :=
  flat_map (fun c => match c with Call j a => if Nat.eqb j i then [a] else [] | _ => [] end) h.
(* the caller does not append to the list r and does not pass it to the constructor *)
Definition leaves_alone (r : nat) (c : kcall) : Prop :=
  match c with Append r' _ => r' <> r | Construct _ _ (Some r') _ _ _ => r' <> r | _ => True end.
(* the i-th object holds the list r, and no other object holds it *)
Definition holds_alone (w : world) (i r : nat) : Prop :=
  (exists o, nth_error (w_objs w) i = Some o /\ o_list o = r) /\
  forall j o, nth_error (w_objs w) j = Some o -> o_list o = r -> j = i.
(* the state of a program: nothing exists at the start *)
Definition happened (w : world) : Prop := exists h, w = performs (World [] []) h.

(* ---------------- lemmas ---------------- *)
Lemma set_nth_length {A} i (x : A) l : length (set_nth i x l) = length l.
Proof. revert i; induction l as [|y l IH]; intros [|i]; cbn; auto. Qed.
Lemma set_nth_same {A} i (x : A) l : (i < length l)%nat -> nth_error (set_nth i x l) i = Some x.
Proof. revert i; induction l as [|y l IH]; intros [|i] H; cbn in *; try lia; auto. apply IH; lia. Qed.
Lemma set_nth_other {A} i j (x : A) l : i <> j -> nth_error (set_nth i x l) j = nth_error l j.
Proof. revert i j; induction l as [|y l IH]; intros [|i] [|j] H; cbn; auto; try congruence. Qed.
Lemma set_nth_id {A} i (x : A) l : nth_error l i = Some x -> set_nth i x l = l.
Proof. revert i; induction l as [|y l IH]; intros [|i] H; cbn in *; try discriminate; [injection H as ->; auto|rewrite IH; auto]. Qed.
Lemma nth_last {A} (l : list A) x : nth_error (l ++ [x]) (length l) = Some x.
Proof. rewrite nth_error_app2 by lia. rewrite Nat.sub_diag. reflexivity. Qed.
Lemma nth_app_inv {A} (l : list A) x j y : nth_error (l ++ [x]) j = Some y -> nth_error l j = Some y \/ (j = length l /\ y = x).
Proof.
  intros H. destruct (Nat.lt_ge_cases j (length l)) as [L|L]; [rewrite nth_error_app1 in H by lia; auto|].
  rewrite nth_error_app2 in H by lia. destruct (j - length l)%nat as [|n] eqn:E; cbn in H; [injection H as <-; right; split; [lia|auto]|]. destruct n; discriminate.
Qed.
Lemma nth_lt {A} (l : list A) i x : nth_error l i = Some x -> (i < length l)%nat.
Proof. intros H. apply nth_error_Some. congruence. Qed.

Definition wf (w : world) : Prop := forall i o, nth_error (w_objs w) i = Some o -> (o_list o < length (w_lists w))%nat.
Lemma wf_perform w c : wf w -> wf (fst (perform w c)).
Proof.
  destruct w as [ls os]. intros W. destruct c as [l|r name|rc cs names labs path n|i|i a]; cbn [perform].
  - intros i o H. cbn in *. rewrite app_length. specialize (W i o H). cbn in W. lia.
  - destruct (nth_error ls r) as [l|]; auto. intros i o H. cbn in *. rewrite set_nth_length. apply (W i o H).
  - destruct names as [r|].
    + destruct (nth_error ls r) as [l|] eqn:E; auto. destruct (init _ _ _ _ _ _) as [k|e]; auto. intros i o H. cbn in *.
      apply nth_app_inv in H. destruct H as [H|(-> & ->)]; [apply (W i o H)|cbn; apply (nth_lt _ _ _ E)].
    + destruct (init _ _ _ _ _ _) as [k|e]; auto. intros i o H. cbn in *. rewrite app_length. cbn.
      apply nth_app_inv in H. destruct H as [H|(-> & ->)]; [specialize (W i o H); cbn in W; lia|cbn; lia].
  - destruct (nth_error os i) as [o0|] eqn:E; auto. destruct (view _ i) as [k|]; auto. intros j o H. cbn in *. rewrite app_length. cbn.
    apply nth_app_inv in H. destruct H as [H|(-> & ->)]; [specialize (W j o H); cbn in W; lia|cbn; lia].
  - destruct (nth_error os i) as [o0|] eqn:E; auto. destruct (view _ i) as [k|]; auto. destruct (step k a) as [k' e]. intros j o H. cbn in *. rewrite set_nth_length.
    destruct (Nat.eq_dec i j) as [<-|N].
    + rewrite set_nth_same in H by (apply (nth_lt _ _ _ E)). injection H as <-. cbn. apply (W i o0 E).
    + rewrite set_nth_other in H by auto. apply (W j o H).
Qed.
Lemma wf_performs h : forall w, wf w -> wf (performs w h).
Proof. induction h as [|c h IH]; intros w W; [exact W|]. apply IH, wf_perform, W. Qed.
Lemma happened_wf w : happened w -> wf w.
Proof. intros (h & ->). apply wf_performs. intros i o H. destruct i; discriminate. Qed.
Lemma happened_more w h : happened w -> happened (performs w h).
Proof. intros (h0 & ->). exists (h0 ++ h). unfold performs. rewrite fold_left_app. reflexivity. Qed.

Lemma with_names_shared k l : k_shared (with_names k l) = false.
Proof. destruct k; reflexivity. Qed.
Lemma with_own_names k : k_shared k = false -> with_names k (k_names k) = k.
Proof. destruct k as [rc ns co la pa m sh]. cbn. intros ->. reflexivity. Qed.
Lemma names_with k l : k_names (with_names k l) = l.
Proof. destruct k; reflexivity. Qed.
Lemma step_unshared k a : k_shared k = false -> k_shared (fst (step k a)) = false.
Proof.
  destruct k as [rc ns co la pa m sh]. cbn [k_shared]. intros ->. destruct a as [name c lab rel|name|p|a|name]; unfold step.
  - destruct (mem name ns); [reflexivity|]. destruct (if rel then Ok c else do i <- minv rc; Ok (vmat c i)); reflexivity.
  - destruct (mem name ns); [|reflexivity]. cbv zeta. destruct (mem name (keys co)); [|reflexivity]. destruct (mem name (keys la)); reflexivity.
  - destruct (check_path ns co p); reflexivity.
  - destruct a; reflexivity.
  - reflexivity.
Qed.
Lemma view_some w i : wf w -> (exists o, nth_error (w_objs w) i = Some o) -> exists k, view w i = Some k /\ k_shared k = false.
Proof.
  intros W (o & E). unfold view. rewrite E. specialize (W i o E). apply nth_error_Some in W. destruct (nth_error (w_lists w) (o_list o)) as [l|]; [|congruence].
  eexists. split; [reflexivity|]. apply with_names_shared.
Qed.
(* one call *)
Lemma perform_view w c i r k : wf w -> holds_alone w i r -> leaves_alone r c -> view w i = Some k ->
  holds_alone (fst (perform w c)) i r /\ view (fst (perform w c)) i = Some (run k (calls_on i [c])).
Proof.
  destruct w as [ls os]. intros W ((o & E & R) & U) A V. cbn [w_objs w_lists] in *.
  assert (LR : (r < length ls)%nat) by (rewrite <- R; apply (W i o E)). assert (LI : (i < length os)%nat) by (apply (nth_lt _ _ _ E)).
  assert (VL : nth_error ls r = Some (k_names k) /\ k = with_names (o_rest o) (k_names k)).
  { unfold view in V. cbn [w_objs w_lists] in V. rewrite E, R in V. destruct (nth_error ls r) as [l|]; [|discriminate]. injection V as <-. rewrite names_with. auto. }
  destruct VL as (VL & VK).
  assert (APP : forall l os', (forall j o', nth_error os' j = Some o' -> o_list o' = r -> j = i) -> nth_error os' i = Some o -> forall ls', nth_error ls' r = Some (k_names k) ->
    l = World ls' os' -> holds_alone l i r /\ view l i = Some k).
  { intros l os' U' E' ls' L' ->. split; [split; [exists o; auto|exact U']|]. unfold view. cbn [w_objs w_lists]. rewrite E', R, L', <- VK. reflexivity. }
  destruct c as [l|r' name|rc cs names labs path n|j|j a]; cbn [perform calls_on flat_map app run fold_left].
  - apply (APP _ os U E (ls ++ [l])); auto. rewrite nth_error_app1 by auto. exact VL.
  - destruct (nth_error ls r') as [l|]; [|apply (APP _ os U E ls); auto]. apply (APP _ os U E (set_nth r' (l ++ [name]) ls)); auto. rewrite set_nth_other by auto. exact VL.
  - destruct names as [r'|].
    + destruct (nth_error ls r') as [l|] eqn:L; [|apply (APP _ os U E ls); auto]. destruct (init _ _ _ _ _ _) as [k'|e]; [|apply (APP _ os U E ls); auto].
      apply (APP _ (os ++ [KObj r' k'])) with ls; auto; [|rewrite nth_error_app1 by auto; exact E]. intros j o' H Q. apply nth_app_inv in H. destruct H as [H|(-> & ->)]; [apply (U j o' H Q)|].
      cbn in Q. cbn in A. congruence.
    + destruct (init _ _ _ _ _ _) as [k'|e]; [|apply (APP _ os U E ls); auto].
      apply (APP _ (os ++ [KObj (length ls) k'])) with (ls ++ [k_names k']); auto; [|rewrite nth_error_app1 by auto; exact E|rewrite nth_error_app1 by auto; exact VL].
      intros j o' H Q. apply nth_app_inv in H. destruct H as [H|(-> & ->)]; [apply (U j o' H Q)|]. cbn in Q. lia.
  - destruct (nth_error os j) as [o1|] eqn:EJ; [|apply (APP _ os U E ls); auto]. destruct (view (World ls os) j) as [k1|]; [|apply (APP _ os U E ls); auto].
    apply (APP _ (os ++ [KObj (length ls) (o_rest o1)])) with (ls ++ [k_names k1]); auto; [|rewrite nth_error_app1 by auto; exact E|rewrite nth_error_app1 by auto; exact VL].
    intros j' o' H Q. apply nth_app_inv in H. destruct H as [H|(-> & ->)]; [apply (U j' o' H Q)|]. cbn in Q. lia.
  - destruct (nth_error os j) as [o1|] eqn:EJ.
    2:{ destruct (Nat.eqb_spec j i) as [->|N]; [congruence|]. apply (APP _ os U E ls); auto. }
    destruct (view_some (World ls os) j W (ex_intro _ o1 EJ)) as (k1 & V1 & S1). rewrite V1. destruct (step k1 a) as [k' e] eqn:ST.
    destruct (Nat.eqb_spec j i) as [->|N].
    + rewrite V in V1. injection V1 as <-. rewrite E in EJ. injection EJ as <-. cbn [fst app fold_left]. rewrite ST. cbn [fst].
      pose proof (step_unshared k a S1) as S'. rewrite ST in S'. cbn [fst] in S'. rewrite R. split.
      * split; [exists (KObj r k'); split; [apply set_nth_same; auto|reflexivity]|]. intros j o' H Q. cbn [w_objs] in H.
        destruct (Nat.eq_dec i j) as [<-|N]; auto. rewrite set_nth_other in H by auto. apply (U j o' H Q).
      * unfold view. cbn [w_objs w_lists]. rewrite set_nth_same by auto. cbn [o_list o_rest]. rewrite set_nth_same by auto. rewrite with_own_names by auto. reflexivity.
    + cbn [fst app fold_left]. assert (NR : o_list o1 <> r) by (intros Q; apply N, (U j o1 EJ Q)).
      apply (APP _ (set_nth j (KObj (o_list o1) k') os)) with (set_nth (o_list o1) (k_names k') ls); auto; [|rewrite set_nth_other by auto; exact E|rewrite set_nth_other by auto; exact VL].
      intros j' o' H Q. destruct (Nat.eq_dec j j') as [<-|N']; [|rewrite set_nth_other in H by auto; apply (U j' o' H Q)].
      rewrite set_nth_same in H by (apply (nth_lt _ _ _ EJ)). injection H as <-. cbn in Q. congruence.
Qed.
Lemma performs_view h : forall w i r k, wf w -> holds_alone w i r -> Forall (leaves_alone r) h -> view w i = Some k ->
  holds_alone (performs w h) i r /\ view (performs w h) i = Some (run k (calls_on i h)).
Proof.
  induction h as [|c h IH]; intros w i r k W H A V; [auto|]. inversion_clear A as [|? ? A1 A2].
  destruct (perform_view w c i r k W H A1 V) as (H1 & V1). destruct (IH _ i r _ (wf_perform w c W) H1 A2 V1) as (H2 & V2). split; [exact H2|].
  change (performs w (c :: h)) with (performs (fst (perform w c)) h). rewrite V2. f_equal. unfold run. rewrite <- fold_left_app. f_equal.
  unfold calls_on. cbn [flat_map]. rewrite app_nil_r. reflexivity.
Qed.

(* ---------------- what is proved ---------------- *)
(* An object that alone holds its list of names, which the caller leaves alone, is always what the calls on it make
   of it, whatever is done with other objects and lists before, between and after. *)
Theorem C77_private : forall w i r k h, happened w -> holds_alone w i r -> view w i = Some k -> Forall (leaves_alone r) h ->
  view (performs w h) i = Some (run k (calls_on i h)) /\ holds_alone (performs w h) i r.
Proof. intros w i r k h P H V A. destruct (performs_view h w i r k (happened_wf w P) H A V). auto. Qed.
Print Assumptions C77_private.

(* k.copy() is equal to k, it alone holds its list, and afterwards neither object sees what is done with the other. *)
Theorem C77_copy : forall w i k, happened w -> view w i = Some k ->
  let j := length (w_objs w) in let r := length (w_lists w) in let w' := fst (perform w (Copy i)) in
  snd (perform w (Copy i)) = None /\ view w' j = Some k /\ view w' i = Some k /\ holds_alone w' j r /\
  (forall h, Forall (leaves_alone r) h -> view (performs w' h) j = Some (run k (calls_on j h))) /\
  (forall ops, view (performs w' (map (Call j) ops)) i = Some k).
Proof.
  intros [ls os] i k P V. cbv zeta. pose proof (happened_wf _ P) as W. cbn [w_objs w_lists].
  assert (E : exists o, nth_error os i = Some o) by (unfold view in V; cbn [w_objs] in V; destruct (nth_error os i) as [o|]; [eauto|discriminate]).
  destruct E as (o & E). assert (SH : k_shared k = false) by (destruct (view_some (World ls os) i W (ex_intro _ o E)) as (k2 & V2 & S2); congruence).
  cbn [perform]. rewrite E, V. cbn [fst snd].
  assert (VK : k = with_names (o_rest o) (k_names k) /\ nth_error ls (o_list o) = Some (k_names k)).
  { unfold view in V. cbn [w_objs w_lists] in V. rewrite E in V. destruct (nth_error ls (o_list o)) as [l|]; [|discriminate]. injection V as <-. rewrite names_with. auto. }
  destruct VK as (VK & VL). pose proof (W i o E) as LT. cbn [w_lists] in LT. pose proof (nth_lt _ _ _ E) as LI.
  set (w' := World (ls ++ [k_names k]) (os ++ [KObj (length ls) (o_rest o)])).
  assert (Vj : view w' (length os) = Some k) by (unfold view, w'; cbn [w_objs w_lists]; rewrite nth_last; cbn [o_list o_rest]; rewrite nth_last, <- VK; reflexivity).
  assert (Vi : view w' i = Some k) by (unfold view, w'; cbn [w_objs w_lists]; rewrite nth_error_app1, E by auto; rewrite nth_error_app1, VL, <- VK by auto; reflexivity).
  assert (H : holds_alone w' (length os) (length ls)).
  { split; [exists (KObj (length ls) (o_rest o)); split; [apply nth_last|reflexivity]|]. intros j' o' Hn Q. apply nth_app_inv in Hn. destruct Hn as [Hn|(-> & _)]; auto.
    specialize (W j' o' Hn). cbn [w_lists] in W. lia. }
  assert (P' : wf w').
  { pose proof (wf_perform (World ls os) (Copy i) W) as Q. cbn [perform] in Q. rewrite E, V in Q. exact Q. }
  split; [reflexivity|]. split; [exact Vj|]. split; [exact Vi|]. split; [exact H|]. split.
  - intros h A. apply (performs_view h w' (length os) (length ls) k P' H A Vj).
  - assert (G : forall ops w2, wf w2 -> holds_alone w2 (length os) (length ls) -> (exists o2, nth_error (w_objs w2) i = Some o2 /\ o_list o2 <> length ls) -> view w2 i = Some k ->
      view (performs w2 (map (Call (length os)) ops)) i = Some k).
    { clear - LI. induction ops as [|a ops IH]; intros w2 W2 H2 (o2 & E2 & N2) V2; [exact V2|]. cbn [map].
      change (performs w2 (Call (length os) a :: map (Call (length os)) ops)) with (performs (fst (perform w2 (Call (length os) a))) (map (Call (length os)) ops)).
      destruct (view_some w2 (length os) W2) as (kj & Vj & _); [destruct H2 as ((oj & Ej & _) & _); eauto|].
      destruct (perform_view w2 (Call (length os) a) (length os) (length ls) kj W2 H2 Logic.I Vj) as (H3 & _).
      destruct H2 as ((oj & Ej & Rj) & _).
      assert (X : fst (perform w2 (Call (length os) a)) = World (set_nth (length ls) (k_names (fst (step kj a))) (w_lists w2)) (set_nth (length os) (KObj (length ls) (fst (step kj a))) (w_objs w2))).
      { destruct w2 as [ls2 os2]. cbn [w_objs w_lists] in *. cbn [perform]. rewrite Ej, Vj, Rj. destruct (step kj a); reflexivity. }
      apply IH; [apply wf_perform, W2|exact H3| |].
      - rewrite X. cbn [w_objs]. exists o2. rewrite set_nth_other by lia. auto.
      - rewrite X. unfold view in *. cbn [w_objs w_lists]. rewrite set_nth_other by lia. rewrite E2 in *. rewrite set_nth_other by auto. exact V2. }
    intros ops. apply G; auto. exists o. cbn [w_objs w']. rewrite nth_error_app1 by auto. split; auto. lia.
Qed.
Print Assumptions C77_copy.

(* Two objects: without the argument names, or with lists that were passed to no other object, each is alone. *)
Theorem C77_constructed : forall w rcell coordinates names labels path n k,
  happened w -> (forall r, names = Some r -> (r < length (w_lists w))%nat /\ forall j o, nth_error (w_objs w) j = Some o -> o_list o <> r) ->
  init rcell coordinates (match names with Some r => nth_error (w_lists w) r | None => None end) labels path n = Ok k ->
  let i := length (w_objs w) in let w' := fst (perform w (Construct rcell coordinates names labels path n)) in
  exists r, holds_alone w' i r /\ view w' i = Some (with_names k (k_names k)) /\
    forall h, Forall (leaves_alone r) h -> view (performs w' h) i = Some (run (with_names k (k_names k)) (calls_on i h)).
Proof.
  intros [ls os] rc cs names labs path n k P F I. cbv zeta. pose proof (happened_wf _ P) as W. cbn [w_objs w_lists] in *.
  assert (G : exists r, holds_alone (fst (perform (World ls os) (Construct rc cs names labs path n))) (length os) r /\
     view (fst (perform (World ls os) (Construct rc cs names labs path n))) (length os) = Some (with_names k (k_names k))).
  { destruct names as [r|].
    - destruct (F r eq_refl) as (LT & NO). pose proof LT as LT'. apply nth_error_Some in LT'. destruct (nth_error ls r) as [l|] eqn:L; [|congruence].
      assert (NK : k_names k = l).
      { revert I. unfold init. cbv zeta. intros I. match type of I with bind ?x _ = _ => destruct x as [ls'|] end; [|discriminate]. cbn [bind] in I.
        destruct (Nat.eqb (length l) (length cs)); [|discriminate]. cbn [bind] in I. destruct (check_path _ _ _); [|discriminate]. cbn [bind] in I. injection I as <-. reflexivity. }
      exists r. cbn [perform]. rewrite L, I. cbn [fst]. split.
      + split; [exists (KObj r k); split; [apply nth_last|reflexivity]|]. intros j o H Q. apply nth_app_inv in H. destruct H as [H|(-> & _)]; auto. destruct (NO j o H Q).
      + unfold view. cbn [w_objs w_lists]. rewrite nth_last. cbn [o_list o_rest]. rewrite L, NK. reflexivity.
    - exists (length ls). cbn [perform]. rewrite I. cbn [fst]. split.
      + split; [exists (KObj (length ls) k); split; [apply nth_last|reflexivity]|]. intros j o H Q. apply nth_app_inv in H. destruct H as [H|(-> & _)]; auto.
        specialize (W j o H). cbn [w_lists] in W. lia.
      + unfold view. cbn [w_objs w_lists]. rewrite nth_last. cbn [o_list o_rest]. rewrite nth_last. reflexivity. }
  destruct G as (r & H & V). exists r. split; [exact H|]. split; [exact V|]. intros h A.
  apply (performs_view h _ (length os) r (with_names k (k_names k)) (wf_perform _ _ W) H A V).
Qed.
Print Assumptions C77_constructed.

(* Two objects made from one list of names: adding a point to the first one breaks the second. *)
Theorem C77_one_list_refuted : exists h k1 k2,
  let w := performs (World [] []) h in
  view w 0 = Some k1 /\ view w 1 = Some k2 /\ consistent k1 /\ consistent k2 /\
  exists k2', view (performs w [Call 0 (AddPoint "C" vzero None true)]) 1 = Some k2' /\
    In "C"%string (k_names k2') /\ lookup "C" (k_coords k2') = None /\ ~ consistent k2' /\
    snd (step k2' (RemovePoint "C")) = Some KeyError.
Proof.
  exists [NewList ["A"; "B"]%string; Construct mid [vzero; vzero] (Some 0%nat) None None 1; Construct mid [vzero; vzero] (Some 0%nat) None None 1].
  eexists _, _. cbv zeta. split; [reflexivity|]. split; [reflexivity|].
  assert (C : consistent (Kp mid ["A"; "B"]%string [("A"%string, vzero); ("B"%string, vzero)] [("A", "A"); ("B", "B")]%string [["A"; "B"]%string] 1 false)).
  { unfold consistent. cbn [k_names k_coords k_labels k_path keys map fst]. split; [repeat constructor; cbn; intuition discriminate|]. split; [reflexivity|]. split; [reflexivity|]. repeat constructor. }
  split; [exact C|]. split; [exact C|]. eexists. split; [reflexivity|]. split; [cbn; auto|]. split; [reflexivity|]. split; [|reflexivity].
  intros (_ & K & _). cbn in K. discriminate K.
Qed.
Print Assumptions C77_one_list_refuted.

(* A history with a copy: both objects are changed afterwards, in different ways. *)
Example C77_case : exists k1 k2,
  let w := performs (World [] []) [Construct mid [vzero; vzero] None None None 1; Copy 0; Call 0 (RemovePoint "K1"); Call 1 (AddPoint "C" vzero None true)] in
  view w 0 = Some k1 /\ view w 1 = Some k2 /\ k_names k1 = ["K2"]%string /\ k_names k2 = ["K1"; "K2"; "C"]%string.
Proof. eexists _, _. cbv zeta. repeat split; reflexivity. Qed.
