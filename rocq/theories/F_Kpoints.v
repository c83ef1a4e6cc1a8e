(* F_Kpoints.v : lemmas about the Kpoints model *)
From Verif Require Import Base M_Strings M_Dict F_Strings M_Kpoints F_Voronoi.
From Coq Require FinFun.
Open Scope R_scope.
Open Scope list_scope.

(* ---------------- k-path strings ---------------- *)
Lemma collect_ok subs p : collect_subpaths subs = Ok p -> p = map (split "-") subs.
Proof.
  revert p; induction subs as [|s subs IH]; cbn [collect_subpaths]; intros p H; [injection H as <-; reflexivity|].
  destruct (Nat.eqb_spec (length (split "-" s)) 1); [discriminate|].
  destruct (collect_subpaths subs) as [r|]; [|discriminate]. cbn [bind] in H.
  pose proof (split_nonempty "-" s) as NE. destruct (split "-" s) as [|w [|w' ws]] eqn:E; [congruence|cbn in *; lia|].
  cbn [length Nat.leb] in H. injection H as <-. cbn [map]. rewrite E, (IH r eq_refl). reflexivity.
Qed.
Lemma collect_iff subs : (exists p, collect_subpaths subs = Ok p) <-> Forall (fun s => ~ free "-" s) subs.
Proof.
  induction subs as [|s subs IH]; cbn [collect_subpaths].
  - split; [constructor|intros _; eauto].
  - rewrite Forall_cons_iff, <- IH, <- split_len1. destruct (Nat.eqb_spec (length (split "-" s)) 1).
    + split; [intros [p H]; discriminate|tauto].
    + destruct (collect_subpaths subs) as [r|]; cbn; split; try (intros [p H]; discriminate); eauto.
      intros [_ [p H]]. discriminate.
Qed.
Lemma collect_err subs e : collect_subpaths subs = Err e -> e = ValueError.
Proof.
  induction subs as [|s subs IH]; cbn [collect_subpaths]; [discriminate|].
  destruct (Nat.eqb _ _); [congruence|]. destruct (collect_subpaths subs); cbn; [discriminate|auto].
Qed.
Lemma map_id_on {A} (f : A -> A) l : Forall (fun x => f x = x) l -> map f l = l.
Proof. induction 1; cbn; congruence. Qed.

(* ---------------- the invariant ---------------- *)
Definition long_enough (p : list (list string)) : Prop := Forall (fun sp => (2 <= length sp)%nat) p.
Definition consistent (k : kpoints) : Prop :=
  NoDup (k_names k) /\ keys (k_coords k) = k_names k /\ keys (k_labels k) = k_names k /\ long_enough (k_path k).

Lemma collect_long subs p : collect_subpaths subs = Ok p -> long_enough p.
Proof.
  intros H. pose proof (proj1 (collect_iff subs) (ex_intro _ p H)) as F. rewrite (collect_ok _ _ H).
  clear H. induction F as [|s subs Hs F IH]; cbn; constructor; auto.
  rewrite <- split_len1 in Hs. pose proof (split_nonempty "-" s). destruct (split "-" s) as [|? [|? ?]]; cbn in *; try lia; congruence.
Qed.
Lemma characters_length s : length (characters s) = String.length s.
Proof. induction s; cbn; auto. Qed.
Lemma read_path_long p l : read_path p = Ok l -> long_enough l.
Proof.
  destruct p as [s|ls|]; cbn [read_path]; intros H; [eapply collect_long; eauto| |discriminate].
  apply mapM_ok in H. unfold long_enough. induction H as [|a b la lb E H IH]; constructor; auto.
  destruct a as [l|s|]; cbn [read_subpath] in E; [| |discriminate].
  - destruct (Nat.ltb_spec (length l) 2); [discriminate|]. injection E as <-. lia.
  - destruct (Nat.ltb_spec (String.length s) 2); [discriminate|]. injection E as <-. rewrite characters_length. lia.
Qed.
Lemma check_path_ok names coords p l : check_path names coords p = Ok l ->
  long_enough l /\ incl (concat l) names /\ read_path p = Ok l.
Proof.
  unfold check_path. destruct (read_path p) as [l'|] eqn:E; cbn; [|discriminate].
  destruct (forallb _ (concat l')) eqn:F; [|destruct (forallb _ names); discriminate].
  intros H. injection H as <-. split; [eapply read_path_long; eauto|]. split; [|reflexivity].
  apply forallb_mem; auto.
Qed.

Definition outer (o : op) : bool := match o with CallerAppends _ => true | _ => false end.
Lemma nodup_snoc {A} (l : list A) x : NoDup l -> ~ In x l -> NoDup (l ++ [x]).
Proof.
  intros N H. apply NoDup_rev in N. rewrite <- (rev_involutive (l ++ [x])). apply NoDup_rev. rewrite rev_app_distr.
  cbn. constructor; auto. rewrite <- in_rev. auto.
Qed.
Lemma step_consistent k o : consistent k -> outer o = false -> consistent (fst (step k o)).
Proof.
  intros (N & C & L & P) O. destruct k as [rc names coords labs path n sh]. cbn [k_names k_coords k_labels k_path] in *.
  destruct o as [name c lab rel|name|p|a|name]; try discriminate; unfold step.
  - destruct (mem name names) eqn:M; [repeat split; auto|].
    destruct (if rel then Ok c else do i <- minv rc; Ok (vmat c i)) as [c'|e]; [|repeat split; auto].
    apply mem_false in M. cbn [fst]. repeat split; cbn [k_names k_coords k_labels k_path fst]; auto.
    + apply nodup_snoc; auto.
    + rewrite keys_set, C. apply mem_false in M. rewrite M. reflexivity.
    + rewrite keys_set, L. apply mem_false in M. rewrite M. reflexivity.
  - destruct (mem name names) eqn:M; [|repeat split; auto]. rewrite C, L, M.
    repeat split; cbn [k_names k_coords k_labels k_path fst]; auto.
    + apply remove_first_nodup; auto.
    + rewrite keys_del, C. reflexivity.
    + rewrite keys_del, L. reflexivity.
  - destruct (check_path names coords p) as [l|e] eqn:E; [|repeat split; auto].
    apply check_path_ok in E. repeat split; cbn [k_names k_coords k_labels k_path fst]; auto. apply E.
  - destruct a; repeat split; auto.
Qed.
Lemma run_app k a b : run k (a ++ b) = run (run k a) b.
Proof. unfold run. apply fold_left_app. Qed.
Lemma run_consistent ops k : consistent k -> Forall (fun o => outer o = false) ops -> consistent (run k ops).
Proof.
  revert k; induction ops as [|o ops IH]; intros k C F; [exact C|]. inversion F; subst.
  apply IH; auto. apply step_consistent; auto.
Qed.
Lemma step_path k o s : outer o = false -> NoDup (k_names k) ->
  (In s (concat (k_path k)) -> In s (k_names k) \/ o = RemovePoint s) ->
  In s (concat (k_path (fst (step k o)))) -> In s (k_names (fst (step k o))) \/ o = RemovePoint s.
Proof.
  intros O N. destruct k as [rc names coords labs path n sh]. cbn [k_path k_names] in *.
  destruct o as [name c lab rel|name|p|a|name]; try discriminate; unfold step; intros Old.
  - destruct (mem name names); [auto|]. destruct (if rel then Ok c else do i <- minv rc; Ok (vmat c i)); [|auto].
    cbn. intros H. destruct (Old H); [left; apply in_or_app|]; auto.
  - destruct (mem name names); [|auto]. intros H.
    assert (R : In s (remove_first name names) \/ RemovePoint name = RemovePoint s).
    { destruct (string_dec s name) as [->|Ne]; [auto|].
      assert (In s (concat path)) as H' by (destruct (mem name (keys coords)); [destruct (mem name (keys labs))|]; exact H).
      destruct (Old H') as [G|G]; [left; apply remove_first_in; auto|auto]. }
    destruct (mem name (keys coords)); [destruct (mem name (keys labs))|]; exact R.
  - destruct (check_path names coords p) as [l|e] eqn:E; [|auto]. apply check_path_ok in E. cbn. intros H.
    left. apply E. exact H.
  - destruct a; auto.
Qed.
Lemma run_path_known ops k : consistent k -> incl (concat (k_path k)) (k_names k) ->
  Forall (fun o => outer o = false) ops ->
  forall s, In s (concat (k_path (run k ops))) -> In s (k_names (run k ops)) \/ In (RemovePoint s) ops.
Proof.
  intros C I F s. revert F. induction ops as [|o ops IH] using rev_ind; intros F H.
  - left. apply I. exact H.
  - apply Forall_app in F. destruct F as [F1 F2]. inversion F2; subst. rewrite run_app in H |- *.
    change (run (run k ops) [o]) with (fst (step (run k ops) o)) in *.
    pose proof (run_consistent _ _ C F1) as (N & _).
    destruct (mem s (concat (k_path (run k ops)))) eqn:M.
    + apply mem_true in M. destruct (IH F1 M) as [G|G]; [|right; apply in_or_app; auto].
      destruct (step_path (run k ops) o s) as [Q|Q]; auto.
      subst. right. apply in_or_app. right. left. reflexivity.
    + apply mem_false in M. destruct (step_path (run k ops) o s) as [Q|Q]; auto; [contradiction|].
      subst. right. apply in_or_app. right. left. reflexivity.
Qed.

Lemma enum_nodup pre post count : NoDup (enum_names pre post count).
Proof.
  unfold enum_names. apply FinFun.Injective_map_NoDup; [|apply seq_NoDup].
  intros a b H. apply app_str_inj in H.
  assert (G : forall s t, digits_only s -> digits_only t -> forall u, (s ++ u = t ++ u)%string -> s = t).
  { clear. induction s as [|c s IH]; intros [|d t] S T u H; cbn in H; auto.
    - exfalso. apply (f_equal String.length) in H. cbn in H. clear - H.
      assert (L : forall t u, (String.length u <= String.length (t ++ u))%nat) by (clear; induction t; cbn; intros; auto).
      specialize (L t u). lia.
    - exfalso. apply (f_equal String.length) in H. cbn in H.
      assert (L : forall t u, (String.length u <= String.length (t ++ u))%nat) by (clear; induction t; cbn; intros; auto).
      specialize (L s u). lia.
    - injection H as -> H. f_equal. eapply IH; eauto; [apply S|apply T]. }
  apply G in H; try apply dec_digits. apply dec_inj in H. lia.
Qed.
Lemma enum_length pre post count : length (enum_names pre post count) = count.
Proof. unfold enum_names. rewrite map_length, seq_length. reflexivity. Qed.

Lemma init_inv rcell coordinates names labs path n k :
  init rcell coordinates names labs path n = Ok k ->
  exists ns ls,
    length ns = length coordinates /\ length ls = length coordinates /\
    match names with None => ns = enum_names "K" "" (length coordinates) | Some ns' => ns = ns' end /\
    match labs with
    | Some ls' => ls = ls'
    | None => ls = match names with None => enum_names "K$_" "$" (length coordinates) | Some ns' => ns' end
    end /\
    k_rcell k = rcell /\ k_names k = ns /\ k_coords k = make_dict (combine ns coordinates) /\
    k_labels k = make_dict (combine ns ls) /\ k_n k = n /\
    check_path ns (k_coords k) match path with None => PathStr (join "-" ns) | Some p => p end = Ok (k_path k).
Proof.
  unfold init. intros H. destruct labs as [ls|].
  - destruct (Nat.eqb_spec (length ls) (length coordinates)); [|discriminate]. cbn [bind] in H. destruct names as [ns|].
    + destruct (Nat.eqb_spec (length ns) (length coordinates)); [|discriminate]. cbn [bind] in H.
      destruct (check_path _ _ _) as [l|] eqn:E; [|discriminate]. injection H as <-.
      exists ns, ls. repeat split; auto.
    + cbn [bind] in H. destruct (check_path _ _ _) as [l|] eqn:E; [|discriminate]. injection H as <-.
      eexists _, ls. repeat split; try reflexivity; auto. apply enum_length.
  - cbn [bind] in H. destruct names as [ns|].
    + destruct (Nat.eqb_spec (length ns) (length coordinates)); [|discriminate]. cbn [bind] in H.
      destruct (check_path _ _ _) as [l|] eqn:E; [|discriminate]. injection H as <-.
      exists ns, ns. repeat split; auto.
    + cbn [bind] in H. destruct (check_path _ _ _) as [l|] eqn:E; [|discriminate]. injection H as <-.
      eexists _, _. repeat split; try reflexivity; auto; apply enum_length.
Qed.
Lemma init_consistent rcell coordinates names labs path n k :
  init rcell coordinates names labs path n = Ok k ->
  (forall ns, names = Some ns -> NoDup ns) ->
  consistent k /\ incl (concat (k_path k)) (k_names k).
Proof.
  intros H ND. destruct (init_inv _ _ _ _ _ _ _ H) as (ns & ls & L1 & L2 & En & El & Er & Ek & Ec & Elb & _ & P).
  assert (N : NoDup ns) by (destruct names; [subst; apply ND; reflexivity|rewrite En; apply enum_nodup]).
  apply check_path_ok in P. rewrite Ek. split; [|apply P].
  unfold consistent. rewrite Ek, Ec, Elb, !make_dict_nodup; unfold keys; rewrite ?combine_fst by congruence; auto.
  repeat split; auto. apply P.
Qed.

(* ---------------- loops over the path ---------------- *)
(* the segments of a path, in order *)
Definition segments (path : list (list string)) : list (string * string) :=
  flat_map (fun sp => combine sp (tl sp)) path.

Lemma app_ne {A} (a b : list A) : a <> [] -> a ++ b <> [].
Proof. destruct a; [congruence|discriminate]. Qed.

Section Loops.
  Variables (coords : dict vec) (X : string -> vec) (cell : mat).
  Definition Y s := vmat (X s) cell.
  Definition len (s : string * string) := norm (vsub (Y (snd s)) (Y (fst s))).
  Fixpoint accum (t : R) (segs : list (string * string)) : list R :=
    match segs with [] => [] | s :: r => (len s + t) :: accum (len s + t) r end.

  Definition ok s := lookup s coords = Some (X s).

  Lemma accum_app t a b : accum t (a ++ b) = accum t a ++ accum (last (accum t a) t) b.
  Proof.
    revert t; induction a as [|s a IH]; intros t; cbn [app accum]; [reflexivity|]. rewrite IH.
    destruct (accum (len s + t) a) as [|y l] eqn:E; [reflexivity|].
    change (last ((len s + t) :: y :: l) t) with (last (y :: l) t). f_equal. f_equal. f_equal.
    assert (G : forall (z : R) l d d', last (z :: l) d = last (z :: l) d').
    { clear. intros z l; revert z; induction l; intros; [reflexivity|]. cbn in *. apply (IHl a). }
    apply G.
  Qed.
  Lemma last_app_accum acc segs d : acc <> [] -> last (acc ++ accum (last acc d) segs) d = last (accum (last acc d) segs) (last acc d).
  Proof.
    intros NE. destruct segs as [|s segs]; cbn [accum].
    - rewrite app_nil_r. reflexivity.
    - set (l := accum _ segs). clearbody l. set (z := len s + last acc d). clearbody z.
      assert (G : forall (a : list R) z l d d', last (a ++ z :: l) d = last (z :: l) d').
      { clear. induction a as [|x a IH]; intros z l d d'.
        - cbn [app]. revert z; induction l; intros; [reflexivity|]. cbn in *. apply (IHl a).
        - cbn [app]. rewrite <- (IH z l d d'). destruct (a ++ z :: l) eqn:E; [destruct a; discriminate|reflexivity]. }
      apply G.
  Qed.
  Lemma ticks_sub_ok rest : forall prev acc, acc <> [] -> Forall ok (prev :: rest) ->
    ticks_sub coords cell prev rest acc = Ok (acc ++ accum (last acc 0) (combine (prev :: rest) rest)).
  Proof.
    induction rest as [|name rest IH]; intros prev acc NE F; cbn [ticks_sub].
    - cbn. rewrite app_nil_r. reflexivity.
    - inversion F as [|? ? F1 F2]; subst. inversion F2 as [|? ? F3 F4]; subst.
      unfold getitem. rewrite F3, F1. cbn [bind]. rewrite IH; auto; [|apply app_ne; auto].
      rewrite last_last, <- app_assoc. reflexivity.
  Qed.
  Lemma ticks_loop_ok path : forall acc, acc <> [] -> long_enough path -> Forall ok (concat path) ->
    ticks_loop coords cell false acc path = Ok (acc ++ accum (last acc 0) (segments path)).
  Proof.
    induction path as [|sp path IH]; intros acc NE L F; cbn [ticks_loop].
    - cbn. rewrite app_nil_r. reflexivity.
    - inversion L as [|? ? L1 L2]; subst. cbn [List.concat] in F. apply Forall_app in F. destruct F as [F1 F2].
      destruct sp as [|h t]; [cbn in L1; lia|]. rewrite ticks_sub_ok by auto. cbn [bind].
      rewrite IH; auto; [|apply app_ne; auto]. cbn [segments flat_map tl].
      rewrite accum_app, app_assoc, last_app_accum by auto. reflexivity.
  Qed.

  Variable n : Z.
  Hypothesis Hn : (0 <= n)%Z.
  Definition W := Z.to_nat (n + 2).
  Definition lin (s : string * string) : list vec :=
    map (fun i => vadd (Y (fst s)) (vscale (INR i / (IZR n + 1)) (vsub (Y (snd s)) (Y (fst s))))) (seq 0 W).
  Lemma linspace_ok a b : linspace (Y a) (Y b) (n + 2) = Ok (lin (a, b)).
  Proof.
    unfold linspace. destruct (Z.ltb_spec (n + 2) 0); [lia|]. destruct (Z.eqb_spec (n + 2) 1); [lia|].
    unfold lin. cbn [fst snd]. f_equal. apply map_ext. intros i. do 3 f_equal. rewrite plus_IZR. lra.
  Qed.
  Lemma lin_length s : length (lin s) = W.
  Proof. unfold lin. rewrite map_length, seq_length. reflexivity. Qed.
  Definition glue {A} (acc : option (list A)) (l : list (list A)) : option (list A) :=
    match l with [] => acc | _ => Some (match acc with None => [] | Some a => a end ++ concat l) end.
  Lemma glue_cons {A} (acc : option (list A)) x l :
    glue (Some match acc with None => x | Some p => p ++ x end) l = glue acc (x :: l).
  Proof.
    unfold glue. destruct acc as [a|], l as [|y l]; cbn [concat List.concat app]; f_equal; rewrite ?app_nil_r, ?app_assoc; auto.
  Qed.
  Lemma glue_app {A} (acc : option (list A)) l m : glue acc (l ++ m) = glue (glue acc l) m.
  Proof.
    destruct l as [|x l]; [reflexivity|]. cbn [app glue]. destruct m as [|y m].
    - rewrite app_nil_r. reflexivity.
    - cbn [glue]. f_equal. rewrite <- app_assoc. f_equal. rewrite <- concat_app. reflexivity.
  Qed.
  Lemma points_sub_ok rest : forall prev acc, Forall ok (prev :: rest) ->
    points_sub coords cell n prev rest acc = Ok (glue acc (map lin (combine (prev :: rest) rest))).
  Proof.
    induction rest as [|name rest IH]; intros prev acc F; cbn [points_sub]; [reflexivity|].
    inversion F as [|? ? F1 F2]; subst. inversion F2 as [|? ? F3 F4]; subst.
    unfold getitem. rewrite F1, F3. cbn [bind]. fold (Y prev) (Y name). rewrite linspace_ok. cbn [bind].
    rewrite IH by auto. rewrite glue_cons. reflexivity.
  Qed.
  Lemma points_loop_ok path : forall acc, long_enough path -> Forall ok (concat path) ->
    points_loop coords cell n acc path = Ok (glue acc (map lin (segments path))).
  Proof.
    induction path as [|sp path IH]; intros acc L F; cbn [points_loop]; [reflexivity|].
    inversion L as [|? ? L1 L2]; subst. cbn [List.concat] in F. apply Forall_app in F. destruct F as [F1 F2].
    destruct sp as [|h t]; [cbn in L1; lia|]. rewrite points_sub_ok by auto. cbn [bind].
    rewrite IH by auto. cbn [segments flat_map tl]. rewrite map_app, glue_app. reflexivity.
  Qed.

  (* flat points, row by row *)
  Definition row (t : R) (s : string * string) : list R := map (fun p => norm (vsub p (Y (fst s))) + t) (lin s).
  Fixpoint frows (t : R) (segs : list (string * string)) : list (list R) :=
    match segs with [] => [] | s :: r => row t s :: frows (len s + t) r end.
  Lemma lin_last s d : last (lin s) d = Y (snd s).
  Proof.
    unfold lin. replace W with (S (Z.to_nat (n + 1))) by (unfold W; lia). rewrite seq_S, map_app. cbn [map].
    rewrite last_last. rewrite INR_IZR_INZ. cbn [plus Nat.add]. rewrite Z2Nat.id, plus_IZR by lia.
    replace ((IZR n + 1) / (IZR n + 1)) with 1.
    - generalize (Y (snd s)) (Y (fst s)). clear. vring.
    - field. apply IZR_le in Hn. lra.
  Qed.
  Lemma last_map {A B} (f : A -> B) l d : last (map f l) (f d) = f (last l d).
  Proof. induction l as [|x l IH]; [reflexivity|]. destruct l as [|y l]; [reflexivity|]. exact IH. Qed.
  Lemma lin_ne s : lin s <> [].
  Proof. intros E. apply (f_equal (@List.length vec)) in E. rewrite lin_length in E. cbn in E. unfold W in E. lia. Qed.
  Lemma last_any {A} (l : list A) d d' : l <> [] -> last l d = last l d'.
  Proof.
    intros NE. destruct l as [|x l]; [congruence|]. clear NE. revert x; induction l; intros x; [reflexivity|].
    cbn in *. apply (IHl a).
  Qed.
  Lemma row_last t s d : last (row t s) d = len s + t.
  Proof.
    unfold row. rewrite (last_any _ d (norm (vsub (Y (snd s)) (Y (fst s))) + t)).
    - rewrite (last_map (fun p => norm (vsub p (Y (fst s))) + t) (lin s) (Y (snd s))). rewrite lin_last. reflexivity.
    - intros E. apply map_eq_nil in E. eapply lin_ne; eauto.
  Qed.
  Lemma row_ne t s : row t s <> [].
  Proof. unfold row. intros E. apply map_eq_nil in E. eapply lin_ne; eauto. Qed.
  Lemma last_app_ne {A} (a b : list A) d : b <> [] -> last (a ++ b) d = last b d.
  Proof.
    intros NE. induction a as [|x a IH]; [reflexivity|]. cbn [app]. rewrite <- IH.
    destruct (a ++ b) eqn:E; [|reflexivity]. destruct a; [cbn in E; congruence|discriminate].
  Qed.
  Lemma flat_sub_ok rest : forall prev f, f <> [] -> Forall ok (prev :: rest) ->
    flat_sub coords cell n false prev rest (Some f) =
    Ok (Some (f ++ concat (frows (last f 0) (combine (prev :: rest) rest)))).
  Proof.
    induction rest as [|name rest IH]; intros prev f NE F; cbn [flat_sub].
    - cbn. rewrite app_nil_r. reflexivity.
    - inversion F as [|? ? F1 F2]; subst. inversion F2 as [|? ? F3 F4]; subst.
      unfold getitem. rewrite F1, F3. cbn [bind]. fold (Y prev) (Y name). rewrite linspace_ok. cbn [bind].
      destruct f as [|x f]; [congruence|]. cbn [bind].
      rewrite map_map.
      assert (RW : map (fun p => norm (vsub p (Y prev)) + last (x :: f) 0) (lin (prev, name)) = row (last (x :: f) 0) (prev, name)) by reflexivity.
      rewrite RW.
      rewrite IH; [|apply app_ne; auto|auto].
      cbn [combine frows concat List.concat].
      rewrite <- app_assoc. rewrite last_app_ne by apply row_ne. rewrite row_last. reflexivity.
  Qed.
  Lemma frows_last t segs d : last (t :: accum t segs) d = last (accum t segs) t.
  Proof.
    destruct segs as [|s r]; [reflexivity|]. cbn [accum]. set (l := accum _ r). clearbody l.
    rewrite (last_any (t :: len s + t :: l) d t) by discriminate. reflexivity.
  Qed.
  Lemma frows_app t a b : frows t (a ++ b) = frows t a ++ frows (last (accum t a) t) b.
  Proof.
    revert t; induction a as [|s a IH]; intros t; [reflexivity|]. cbn [app frows accum]. rewrite IH, frows_last. reflexivity.
  Qed.
  Lemma last_concat_frows f segs d : f <> [] -> last (f ++ concat (frows (last f d) segs)) d = last (accum (last f d) segs) (last f d).
  Proof.
    revert f; induction segs as [|s segs IH]; intros f NE; cbn [frows accum concat List.concat].
    - rewrite app_nil_r. reflexivity.
    - rewrite frows_last, app_assoc. specialize (IH (f ++ row (last f d) s)).
      rewrite (last_app_ne f (row (last f d) s) d (row_ne _ _)), row_last in IH. apply IH. apply app_ne; auto.
  Qed.
  Lemma flat_loop_ok path : forall f, f <> [] -> long_enough path -> Forall ok (concat path) ->
    flat_loop coords cell n false (Some f) path = Ok (Some (f ++ concat (frows (last f 0) (segments path)))).
  Proof.
    induction path as [|sp path IH]; intros f NE L F; cbn [flat_loop].
    - cbn. rewrite app_nil_r. reflexivity.
    - inversion L as [|? ? L1 L2]; subst. cbn [List.concat] in F. apply Forall_app in F. destruct F as [F1 F2].
      destruct sp as [|h t]; [cbn in L1; lia|]. rewrite flat_sub_ok by auto. cbn [bind].
      rewrite IH; auto; [|apply app_ne; auto]. rewrite last_concat_frows by auto.
      cbn [segments flat_map tl]. fold (segments path). rewrite frows_app, concat_app, app_assoc. reflexivity.
  Qed.
  Lemma flat_first path : path <> [] -> long_enough path -> Forall ok (concat path) ->
    flat_loop coords cell n true None path = Ok (Some (concat (frows 0 (segments path)))).
  Proof.
    destruct path as [|[|h [|h2 t]] path]; intros NE L F; [congruence|inversion L; cbn in *; lia|inversion L; cbn in *; lia|].
    inversion L as [|? ? L1 L2]; subst. cbn [List.concat] in F. apply Forall_app in F. destruct F as [F1 F2].
    inversion F1 as [|? ? G1 G2]; subst. inversion G2 as [|? ? G3 G4]; subst.
    cbn [flat_loop flat_sub]. unfold getitem. rewrite G1, G3. cbn [bind]. fold (Y h) (Y h2). rewrite linspace_ok. cbn [bind].
    assert (R0 : map (fun p => norm (vsub p (Y h))) (lin (h, h2)) = row 0 (h, h2)).
    { unfold row. apply map_ext. intros p. cbn [fst]. ring. }
    rewrite R0. rewrite flat_sub_ok by (auto; apply row_ne). cbn [bind].
    rewrite flat_loop_ok; auto; [|intros E; apply app_eq_nil in E; destruct E as [E _]; eapply row_ne; eauto].
    rewrite last_concat_frows by apply row_ne. rewrite row_last.
    cbn [segments flat_map tl]. fold (segments path).
    change (combine (h :: h2 :: t) (h2 :: t)) with ((h, h2) :: combine (h2 :: t) t).
    cbn [app frows concat List.concat]. rewrite frows_app, concat_app, !app_assoc. reflexivity.
  Qed.
  Lemma ticks_first path : path <> [] -> long_enough path -> Forall ok (concat path) ->
    ticks_loop coords cell true [] path = Ok (0 :: accum 0 (segments path)).
  Proof.
    destruct path as [|[|h t] path]; intros NE L F; [congruence|inversion L; cbn in *; lia|].
    inversion L as [|? ? L1 L2]; subst. cbn [List.concat] in F. apply Forall_app in F. destruct F as [F1 F2].
    cbn [ticks_loop app]. rewrite ticks_sub_ok by (auto; discriminate). cbn [bind].
    rewrite ticks_loop_ok by (auto; discriminate).
    rewrite last_app_accum by discriminate. cbn [last].
    cbn [segments flat_map tl]. fold (segments path). rewrite accum_app. reflexivity.
  Qed.
  Lemma accum_length t segs : length (accum t segs) = length segs.
  Proof. revert t; induction segs; cbn; auto. Qed.
  Lemma accum_nth segs : forall t i s, nth_error segs i = Some s ->
    exists a, nth_error (t :: accum t segs) i = Some a /\ nth_error (t :: accum t segs) (S i) = Some (len s + a)
      /\ nth_error (frows t segs) i = Some (row a s).
  Proof.
    induction segs as [|s0 segs IH]; intros t i s E; [destruct i; discriminate|]. destruct i as [|i]; cbn in E.
    - injection E as ->. exists t. repeat split; reflexivity.
    - destruct (IH (len s0 + t) i s E) as (a & A1 & A2 & A3). exists a. repeat split; auto.
  Qed.
  Lemma frows_length t segs : length (frows t segs) = length segs.
  Proof. revert t; induction segs; cbn; auto. Qed.
  Lemma frows_width t segs : Forall (fun r => length r = W) (frows t segs).
  Proof. revert t; induction segs; cbn; constructor; auto. unfold row. rewrite map_length. apply lin_length. Qed.
  Lemma concat_length {A} (l : list (list A)) w : Forall (fun r => length r = w) l -> length (concat l) = (length l * w)%nat.
  Proof. induction 1; cbn; [reflexivity|]. rewrite app_length, H, IHForall. reflexivity. Qed.
  Lemma nth_lin s j : (j < W)%nat -> nth_error (lin s) j =
    Some (vadd (Y (fst s)) (vscale (INR j / (IZR n + 1)) (vsub (Y (snd s)) (Y (fst s))))).
  Proof.
    intros H. unfold lin. rewrite nth_error_map. rewrite (nth_error_nth' _ 0%nat) by (rewrite seq_length; auto).
    rewrite seq_nth by auto. reflexivity.
  Qed.
End Loops.

Lemma len_nonneg X cell s : 0 <= len X cell s.
Proof. unfold len. apply norm_nonneg. Qed.
Lemma segs_length path : long_enough path ->
  length (segments path) = fold_right (fun sp acc => (length sp - 1 + acc)%nat) 0%nat path.
Proof.
  induction 1 as [|sp path Hs Hp IH]; [reflexivity|]. cbn [segments flat_map fold_right]. rewrite app_length.
  fold (segments path). rewrite IH. f_equal. rewrite combine_length. destruct sp; cbn [List.length tl] in *; lia.
Qed.

(* ---------------- labels ---------------- *)
Lemma append_last_ok s l : l <> [] -> exists r, append_last s l = Ok r /\ length r = length l.
Proof.
  induction l as [|x l IH]; [congruence|]. intros _. destruct l as [|y l]; [cbn; eauto|].
  destruct IH as (r & E & L); [discriminate|]. cbn [append_last] in *. rewrite E. cbn [bind]. eexists. split; [reflexivity|].
  cbn [List.length] in *. congruence.
Qed.
Lemma mapM_getitem {A} (d : dict A) l : incl l (keys d) -> exists r, mapM (fun s => getitem s d) l = Ok r /\ length r = length l.
Proof.
  induction l as [|x l IH]; intros I; [cbn; eauto|].
  destruct IH as (r & E & L); [intros y Hy; apply I; cbn; auto|].
  destruct (proj2 (lookup_in x d)) as [v Hv]; [apply I; cbn; auto|].
  cbn. unfold getitem at 1. rewrite Hv. cbn. rewrite E. cbn. eexists. split; [reflexivity|]. cbn [List.length]. congruence.
Qed.
Lemma mapM_getitem_err {A} (d : dict A) l : ~ incl l (keys d) -> mapM (fun s => getitem s d) l = Err KeyError.
Proof.
  induction l as [|x l IH]; intros NI; [exfalso; apply NI; intros y []|]. cbn. unfold getitem at 1.
  destruct (lookup x d) eqn:E; cbn; [|reflexivity]. rewrite IH; [reflexivity|]. intros I. apply NI. intros y [<-|Hy]; auto.
  apply lookup_in. eauto.
Qed.
Lemma labels_loop_ok d path : long_enough path -> incl (concat path) (keys d) -> forall first acc, (first = false -> acc <> []) ->
  exists r, labels_loop d first acc path = Ok r /\
    length r = (length acc + length (segments path) + if first then match path with [] => 0 | _ => 1 end else 0)%nat.
Proof.
  induction 1 as [|sp path Hs Hp IH]; intros I first acc NE; cbn [labels_loop].
  - exists acc. split; auto. cbn. destruct first; lia.
  - destruct sp as [|h t]; [cbn in Hs; lia|]. cbn [List.concat] in I.
    destruct (proj2 (lookup_in h d)) as [v Hv]; [apply I; cbn; auto|]. unfold getitem at 1. rewrite Hv. cbn [bind].
    assert (A : exists acc1, (if first then Ok (acc ++ [v]) else append_last ("|" ++ v) acc) = Ok acc1 /\
      length acc1 = (length acc + if first then 1 else 0)%nat).
    { destruct first; [eexists; split; [reflexivity|apply app_length]|]. destruct (append_last_ok ("|" ++ v) acc) as (r & E & L); auto.
      exists r. split; auto. lia. }
    destruct A as (acc1 & -> & L1). cbn [bind].
    destruct (mapM_getitem d t) as (lt & -> & L2); [intros y Hy; apply I; apply in_or_app; cbn; auto|]. cbn [bind].
    destruct (IH (fun y Hy => I y (in_or_app _ _ _ (or_intror Hy))) false (acc1 ++ lt)) as (r & E & L).
    { intros _ E. apply (f_equal (@List.length string)) in E. rewrite app_length in E. cbn in *. lia. }
    exists r. split; auto. rewrite L, app_length. cbn [segments flat_map tl]. rewrite app_length, combine_length. fold (segments path).
    destruct first; cbn [length]; lia.
Qed.
Lemma labels_loop_err d path : long_enough path -> ~ incl (concat path) (keys d) -> forall first acc, (first = false -> acc <> []) ->
  labels_loop d first acc path = Err KeyError.
Proof.
  induction 1 as [|sp path Hs Hp IH]; intros I first acc NE; cbn [labels_loop].
  - exfalso. apply I. intros y [].
  - destruct sp as [|h t]; [cbn in Hs; lia|]. cbn [List.concat] in I. unfold getitem at 1.
    destruct (lookup h d) as [v|] eqn:Hv; cbn [bind]; [|reflexivity].
    assert (A : exists acc1, (if first then Ok (acc ++ [v]) else append_last ("|" ++ v) acc) = Ok acc1 /\ acc1 <> []).
    { destruct first; [eexists; split; [reflexivity|destruct acc; discriminate]|]. destruct (append_last_ok ("|" ++ v) acc) as (r & E & L); auto.
      exists r. split; auto. intros ->. cbn in L. apply NE; auto. destruct acc; [auto|discriminate]. }
    destruct A as (acc1 & -> & L1). cbn [bind].
    destruct (forallb (fun s => mem s (keys d)) t) eqn:Ft.
    + apply forallb_mem in Ft. destruct (mapM_getitem d t Ft) as (lt & -> & L2). cbn [bind].
      apply IH; [|intros _; destruct acc1; [congruence|discriminate]].
      intros J. apply I. intros y Hy. apply in_app_or in Hy. destruct Hy as [[<-|Hy]|Hy]; auto. apply lookup_in; eauto.
    + rewrite mapM_getitem_err; [reflexivity|]. intros J. apply forallb_mem in J. congruence.
Qed.

(* what labels() should be *)
Fixpoint labels_spec (lab : string -> string) (path : list (list string)) : list string :=
  match path with
  | [] => []
  | [sp] => map lab sp
  | sp :: rest =>
      map lab (removelast sp)
      ++ [(lab (last sp EmptyString) ++ "|" ++ hd EmptyString (labels_spec lab rest))%string]
      ++ tl (labels_spec lab rest)
  end.
Lemma append_last_eq s l d : l <> [] -> append_last s l = Ok (removelast l ++ [(last l d ++ s)%string]).
Proof.
  induction l as [|x l IH]; [congruence|]. intros _. destruct l as [|y l]; [reflexivity|].
  cbn [append_last] in *. rewrite IH by discriminate. reflexivity.
Qed.
Lemma mapM_getitem_eq {A} (d : dict A) (f : string -> A) l : (forall s, In s l -> lookup s d = Some (f s)) ->
  mapM (fun s => getitem s d) l = Ok (map f l).
Proof.
  induction l as [|x l IH]; intros H; [reflexivity|]. cbn. unfold getitem at 1. rewrite H by (cbn; auto). cbn.
  rewrite IH by (intros; apply H; cbn; auto). reflexivity.
Qed.
Lemma labels_spec_ne lab path : path <> [] -> long_enough path -> labels_spec lab path <> [].
Proof.
  intros NE L. destruct path as [|sp [|sp2 path]]; [congruence| |].
  - inversion L; subst. cbn. destruct sp; [cbn in *; lia|discriminate].
  - cbn [labels_spec]. intros E. apply app_eq_nil in E. destruct E as [_ E]. discriminate.
Qed.
Lemma removelast_map {A B} (f : A -> B) l : removelast (map f l) = map f (removelast l).
Proof. induction l as [|x l IH]; [reflexivity|]. destruct l; [reflexivity|]. cbn in *. rewrite IH. reflexivity. Qed.
Lemma last_map' {A B} (f : A -> B) l d d' : l <> [] -> last (map f l) d' = f (last l d).
Proof.
  induction l as [|x l IH]; [congruence|]. intros _. destruct l as [|y l]; [reflexivity|].
  change (last (map f (x :: y :: l)) d') with (last (map f (y :: l)) d'). rewrite IH by discriminate. reflexivity.
Qed.
Lemma labels_loop_false d lab path : long_enough path -> (forall s, In s (concat path) -> lookup s d = Some (lab s)) ->
  forall acc, acc <> [] -> labels_loop d false acc path =
    Ok match path with [] => acc
       | _ => removelast acc ++ [(last acc EmptyString ++ "|" ++ hd EmptyString (labels_spec lab path))%string] ++ tl (labels_spec lab path) end.
Proof.
  induction 1 as [|sp path Hs Hp IH]; intros I acc NE; cbn [labels_loop]; [reflexivity|].
  destruct sp as [|h t]; [cbn in Hs; lia|]. cbn [List.concat] in I. unfold getitem at 1.
  rewrite (I h) by (cbn; auto). cbn [bind]. rewrite (append_last_eq _ _ EmptyString) by auto. cbn [bind].
  rewrite (mapM_getitem_eq d lab t) by (intros; apply I; apply in_or_app; cbn; auto). cbn [bind].
  assert (T : t <> []) by (destruct t; [cbn in Hs; lia|discriminate]).
  rewrite IH; [|intros; apply I; apply in_or_app; auto|apply app_ne; destruct (removelast acc); discriminate].
  destruct path as [|sp2 path].
  - cbn [labels_spec map hd tl]. rewrite <- app_assoc. reflexivity.
  - f_equal. set (R := labels_spec lab (sp2 :: path)). 
    change (labels_spec lab ((h :: t) :: sp2 :: path)) with (map lab (removelast (h :: t))
      ++ [(lab (last (h :: t) EmptyString) ++ "|" ++ hd EmptyString R)%string] ++ tl R).
    replace (removelast (h :: t)) with (h :: removelast t) by (destruct t; [congruence|reflexivity]).
    replace (last (h :: t) EmptyString) with (last t EmptyString) by (destruct t; [congruence|reflexivity]).
    cbn [map app hd tl].
    assert (M : map lab t <> []) by (destruct t; [congruence|discriminate]).
    rewrite (last_app_ne _ (map lab t)) by auto. rewrite (last_map' lab t EmptyString) by auto.
    rewrite removelast_app by auto. rewrite removelast_map, <- !app_assoc. reflexivity.
Qed.
Lemma labels_first d lab path : path <> [] -> long_enough path -> (forall s, In s (concat path) -> lookup s d = Some (lab s)) ->
  labels_loop d true [] path = Ok (labels_spec lab path).
Proof.
  intros NE L I. destruct path as [|[|h t] path]; [congruence|inversion L; cbn in *; lia|].
  inversion L as [|? ? L1 L2]; subst. cbn [labels_loop app]. unfold getitem at 1. cbn [List.concat] in I.
  rewrite (I h) by (cbn; auto). cbn [bind].
  rewrite (mapM_getitem_eq d lab t) by (intros; apply I; apply in_or_app; cbn; auto). cbn [bind].
  rewrite (labels_loop_false d lab) by (auto; try discriminate; intros; apply I; apply in_or_app; auto).
  destruct path as [|sp2 path]; [reflexivity|].
  change ([lab h] ++ map lab t) with (map lab (h :: t)). rewrite removelast_map.
  rewrite (last_map' lab (h :: t) EmptyString) by discriminate. reflexivity.
Qed.
Lemma labels_spec_length lab path : path <> [] -> long_enough path -> length (labels_spec lab path) = S (length (segments path)).
Proof.
  intros NE L. induction L as [|sp path Hs Hp IH]; [congruence|]. destruct path as [|sp2 path].
  - cbn [labels_spec segments flat_map]. rewrite app_nil_r, map_length, combine_length. destruct sp; cbn [List.length tl] in *; lia.
  - set (R := labels_spec lab (sp2 :: path)) in *.
    change (labels_spec lab (sp :: sp2 :: path)) with (map lab (removelast sp)
      ++ [(lab (last sp EmptyString) ++ "|" ++ hd EmptyString R)%string] ++ tl R).
    change (segments (sp :: sp2 :: path)) with (combine sp (tl sp) ++ segments (sp2 :: path)).
    rewrite !app_length, map_length, combine_length. cbn [List.length]. specialize (IH ltac:(discriminate)).
    assert (length (removelast sp) = (length sp - 1)%nat).
    { clear. induction sp as [|x l IH]; [reflexivity|]. destruct l; [reflexivity|]. cbn [removelast] in *. cbn [List.length] in *. lia. }
    destruct R; [discriminate|]. cbn [tl List.length] in *. destruct sp; cbn [List.length tl] in *; lia.
Qed.

(* errors of the coordinate loops *)
Section LoopErrors.
  Variables (coords : dict vec) (cell : mat) (n : Z).
  Hypothesis Hn : (0 <= n)%Z.
  Lemma lookup_split s : (exists v, getitem s coords = Ok v /\ In s (keys coords)) \/ (getitem s coords = Err KeyError /\ ~ In s (keys coords)).
  Proof.
    unfold getitem. destruct (lookup s coords) as [v|] eqn:E.
    - left. exists v. split; auto. apply lookup_in; eauto.
    - right. split; auto. apply lookup_none; auto.
  Qed.
  Lemma linspace_is_ok a b : exists l, linspace a b (n + 2) = Ok l /\ l <> [].
  Proof.
    unfold linspace. destruct (Z.ltb_spec (n + 2) 0); [lia|]. destruct (Z.eqb_spec (n + 2) 1); [lia|].
    eexists. split; [reflexivity|]. replace (Z.to_nat (n + 2)) with (S (Z.to_nat (n + 1))) by lia. discriminate.
  Qed.
  Lemma ticks_sub_bad rest : forall prev acc, rest <> [] -> ~ incl (prev :: rest) (keys coords) ->
    ticks_sub coords cell prev rest acc = Err KeyError.
  Proof.
    induction rest as [|name rest IH]; intros prev acc NE NI; [congruence|]. cbn [ticks_sub].
    destruct (lookup_split name) as [(b & -> & Hb)|[-> _]]; [|reflexivity]. cbn [bind].
    destruct (lookup_split prev) as [(a & -> & Ha)|[-> _]]; [|reflexivity]. cbn [bind].
    apply IH.
    - intros ->. apply NI. intros y [<-|[<-|[]]]; auto.
    - intros J. apply NI. intros y [<-|Hy]; auto.
  Qed.
  Lemma ticks_sub_good rest : forall prev acc, incl (prev :: rest) (keys coords) -> exists r, ticks_sub coords cell prev rest acc = Ok r.
  Proof.
    induction rest as [|name rest IH]; intros prev acc I; [cbn; eauto|]. cbn [ticks_sub].
    destruct (lookup_split name) as [(b & -> & Hb)|[_ Hb]]; [|exfalso; apply Hb, I; cbn; auto]. cbn [bind].
    destruct (lookup_split prev) as [(a & -> & Ha)|[_ Ha]]; [|exfalso; apply Ha, I; cbn; auto]. cbn [bind].
    apply IH. intros y Hy. apply I. cbn in *. tauto.
  Qed.
  Lemma known_dec l : incl l (keys coords) \/ ~ incl l (keys coords).
  Proof. destruct (forallb (fun s => mem s (keys coords)) l) eqn:E; [left|right; intros J]; apply forallb_mem in E || apply forallb_mem in J; auto. congruence. Qed.
  Lemma ticks_loop_bad path : forall first acc, long_enough path -> ~ incl (concat path) (keys coords) ->
    ticks_loop coords cell first acc path = Err KeyError.
  Proof.
    induction path as [|sp path IH]; intros first acc L NI; [exfalso; apply NI; intros y []|].
    inversion L as [|? ? L1 L2]; subst. cbn [ticks_loop]. destruct sp as [|h t]; [cbn in L1; lia|]. cbn [List.concat] in NI.
    destruct (known_dec (h :: t)) as [K|K].
    - destruct (ticks_sub_good t h (if first then acc ++ [0] else acc) K) as [r ->]. cbn [bind]. apply IH; auto.
      intros J. apply NI. apply incl_app; auto.
    - rewrite ticks_sub_bad; auto. destruct t; [cbn in L1; lia|discriminate].
  Qed.
  Lemma points_sub_bad rest : forall prev acc, rest <> [] -> ~ incl (prev :: rest) (keys coords) ->
    points_sub coords cell n prev rest acc = Err KeyError.
  Proof.
    induction rest as [|name rest IH]; intros prev acc NE NI; [congruence|]. cbn [points_sub].
    destruct (lookup_split prev) as [(a & -> & Ha)|[-> _]]; [|reflexivity]. cbn [bind].
    destruct (lookup_split name) as [(b & -> & Hb)|[-> _]]; [|reflexivity]. cbn [bind].
    destruct (linspace_is_ok (vmat a cell) (vmat b cell)) as (l & -> & _). cbn [bind].
    apply IH.
    - intros ->. apply NI. intros y [<-|[<-|[]]]; auto.
    - intros J. apply NI. intros y [<-|Hy]; auto.
  Qed.
  Lemma points_sub_good rest : forall prev acc, incl (prev :: rest) (keys coords) -> exists r, points_sub coords cell n prev rest acc = Ok r.
  Proof.
    induction rest as [|name rest IH]; intros prev acc I; [cbn; eauto|]. cbn [points_sub].
    destruct (lookup_split prev) as [(a & -> & Ha)|[_ Ha]]; [|exfalso; apply Ha, I; cbn; auto]. cbn [bind].
    destruct (lookup_split name) as [(b & -> & Hb)|[_ Hb]]; [|exfalso; apply Hb, I; cbn; auto]. cbn [bind].
    destruct (linspace_is_ok (vmat a cell) (vmat b cell)) as (l & -> & _). cbn [bind].
    apply IH. intros y Hy. apply I. cbn in *. tauto.
  Qed.
  Lemma points_loop_bad path : forall acc, long_enough path -> ~ incl (concat path) (keys coords) ->
    points_loop coords cell n acc path = Err KeyError.
  Proof.
    induction path as [|sp path IH]; intros acc L NI; [exfalso; apply NI; intros y []|].
    inversion L as [|? ? L1 L2]; subst. cbn [points_loop]. destruct sp as [|h t]; [cbn in L1; lia|]. cbn [List.concat] in NI.
    destruct (known_dec (h :: t)) as [K|K].
    - destruct (points_sub_good t h acc K) as [r ->]. cbn [bind]. apply IH; auto.
      intros J. apply NI. apply incl_app; auto.
    - rewrite points_sub_bad; auto. destruct t; [cbn in L1; lia|discriminate].
  Qed.
  Definition fine (first : bool) (acc : option (list R)) := first = true \/ exists f, acc = Some f /\ f <> [].
  Lemma flat_sub_bad rest : forall first prev acc, fine first acc -> rest <> [] -> ~ incl (prev :: rest) (keys coords) ->
    flat_sub coords cell n first prev rest acc = Err KeyError.
  Proof.
    induction rest as [|name rest IH]; intros first prev acc G NE NI; [congruence|]. cbn [flat_sub].
    destruct (lookup_split prev) as [(a & -> & Ha)|[-> _]]; [|reflexivity]. cbn [bind].
    destruct (lookup_split name) as [(b & -> & Hb)|[-> _]]; [|reflexivity]. cbn [bind].
    destruct (linspace_is_ok (vmat a cell) (vmat b cell)) as (l & -> & NL). cbn [bind].
    set (dl := map _ l). assert (ND : dl <> []) by (intros E; apply map_eq_nil in E; contradiction). clearbody dl.
    assert (A : exists acc1, (if first then Ok dl else match acc with None => Err TypeError | Some [] => Err IndexError
      | Some f => Ok (f ++ map (fun d => d + last f 0) dl) end) = Ok acc1 /\ acc1 <> []).
    { destruct first; [eauto|]. destruct G as [G|(f & -> & Nf)]; [discriminate|]. destruct f; [congruence|]. eexists. split; [reflexivity|discriminate]. }
    destruct A as (acc1 & -> & N1). cbn [bind].
    apply IH.
    - right. eauto.
    - intros ->. apply NI. intros y [<-|[<-|[]]]; auto.
    - intros J. apply NI. intros y [<-|Hy]; auto.
  Qed.
  Lemma flat_sub_good rest : forall first prev acc, fine first acc -> incl (prev :: rest) (keys coords) ->
    exists r, flat_sub coords cell n first prev rest acc = Ok r /\ (rest <> [] \/ first = false -> fine false r).
  Proof.
    induction rest as [|name rest IH]; intros first prev acc G I.
    { cbn. eexists. split; [reflexivity|]. intros [H|H]; [congruence|]. subst. destruct G as [G|G]; [discriminate|right; auto]. }
    cbn [flat_sub].
    destruct (lookup_split prev) as [(a & -> & Ha)|[_ Ha]]; [|exfalso; apply Ha, I; cbn; auto]. cbn [bind].
    destruct (lookup_split name) as [(b & -> & Hb)|[_ Hb]]; [|exfalso; apply Hb, I; cbn; auto]. cbn [bind].
    destruct (linspace_is_ok (vmat a cell) (vmat b cell)) as (l & -> & NL). cbn [bind].
    set (dl := map _ l). assert (ND : dl <> []) by (intros E; apply map_eq_nil in E; contradiction). clearbody dl.
    assert (A : exists acc1, (if first then Ok dl else match acc with None => Err TypeError | Some [] => Err IndexError
      | Some f => Ok (f ++ map (fun d => d + last f 0) dl) end) = Ok acc1 /\ acc1 <> []).
    { destruct first; [eauto|]. destruct G as [G|(f & -> & Nf)]; [discriminate|]. destruct f; [congruence|]. eexists. split; [reflexivity|discriminate]. }
    destruct A as (acc1 & -> & N1). cbn [bind].
    destruct (IH false name (Some acc1)) as (r & E & Fr).
    - right. eauto.
    - intros y Hy. apply I. cbn in *. tauto.
    - exists r. split; auto.
  Qed.
  Lemma flat_loop_bad path : forall first acc, fine first acc -> long_enough path -> ~ incl (concat path) (keys coords) ->
    flat_loop coords cell n first acc path = Err KeyError.
  Proof.
    induction path as [|sp path IH]; intros first acc G L NI; [exfalso; apply NI; intros y []|].
    inversion L as [|? ? L1 L2]; subst. cbn [flat_loop]. destruct sp as [|h t]; [cbn in L1; lia|]. cbn [List.concat] in NI.
    assert (T : t <> []) by (destruct t; [cbn in L1; lia|discriminate]).
    destruct (known_dec (h :: t)) as [K|K].
    - destruct (flat_sub_good t first h acc G K) as (r & -> & Fr). cbn [bind]. apply IH; auto.
      intros J. apply NI. apply incl_app; auto.
    - rewrite flat_sub_bad; auto.
  Qed.
End LoopErrors.
