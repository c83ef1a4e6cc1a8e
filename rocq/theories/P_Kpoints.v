(* P_Kpoints.v : properties C17-C22 *)
From Verif Require Import Base M_Strings M_Dict F_Strings M_Kpoints F_Voronoi F_Kpoints.
Open Scope R_scope.
Open Scope list_scope.

(* ================= C17 ================= *)
Theorem C17_string_round_trip : forall s p, get_path_as_list s = Ok p -> get_path_as_string p = s.
Proof.
  intros s p H. unfold get_path_as_list in H. rewrite (collect_ok _ _ H). unfold get_path_as_string.
  rewrite map_map. rewrite map_id_on; [apply join_split|]. apply Forall_forall. intros x _. apply join_split.
Qed.
Print Assumptions C17_string_round_trip.

(* names a caller may use: without the separators *)
Definition plain (s : string) : Prop := free "-" s /\ free "|" s.

Lemma join_free c sep l : free c sep -> Forall (free c) l -> free c (join sep l).
Proof.
  intros S. induction 1 as [|w l Hw Hl IH]; [exact I|]. destruct l as [|w' l]; [exact Hw|].
  rewrite join_cons by discriminate. rewrite !free_app. auto.
Qed.
Lemma join_dash_not_free l : (2 <= length l)%nat -> ~ free "-" (join "-" l).
Proof.
  destruct l as [|a [|b l]]; cbn [List.length]; try lia. intros _ F. rewrite join_cons in F by discriminate.
  rewrite free_app in F. destruct F as [_ F]. cbn in F. tauto.
Qed.
Theorem C17_list_round_trip : forall p, p <> [] ->
  Forall (fun sp => (2 <= length sp)%nat /\ Forall plain sp) p ->
  get_path_as_list (get_path_as_string p) = Ok p.
Proof.
  intros p NE F. unfold get_path_as_list, get_path_as_string. rewrite split_join.
  - destruct (proj2 (collect_iff (map (join "-") p))) as [q Hq].
    + rewrite Forall_map. eapply Forall_impl; [|exact F]. intros sp [L _]. apply join_dash_not_free; auto.
    + rewrite Hq. f_equal. apply collect_ok in Hq. rewrite Hq, map_map. apply map_id_on.
      eapply Forall_impl; [|exact F]. intros sp [L P]. apply split_join.
      * destruct sp; [cbn in L; lia|discriminate].
      * eapply Forall_impl; [|exact P]. intros s [A _]. exact A.
  - destruct p; [congruence|discriminate].
  - rewrite Forall_map. eapply Forall_impl; [|exact F]. intros sp [L P]. apply join_free; [cbn; intuition discriminate|].
    eapply Forall_impl; [|exact P]. intros s [_ A]. exact A.
Qed.
Print Assumptions C17_list_round_trip.

(* A string is accepted iff each of its '|'-separated parts contains a '-'; everything
   else is a ValueError.  Every string is the join of its parts. *)
Theorem C17_accepts : forall parts, parts <> [] -> Forall (free "|") parts ->
  ((exists p, get_path_as_list (join "|" parts) = Ok p) <-> Forall (fun s => ~ free "-" s) parts) /\
  (forall e, get_path_as_list (join "|" parts) = Err e -> e = ValueError).
Proof.
  intros parts NE F. unfold get_path_as_list. rewrite split_join by auto. split; [apply collect_iff|apply collect_err].
Qed.
Theorem C17_every_string_has_parts : forall s, exists parts, parts <> [] /\ Forall (free "|") parts /\ s = join "|" parts.
Proof.
  intros s. exists (split "|" s). split; [apply split_nonempty|]. split; [apply split_pieces|].
  symmetry. apply join_split.
Qed.
Print Assumptions C17_accepts.

Example C17_case : get_path_as_list "G-X-Y-S|G-Z" = Ok [["G"; "X"; "Y"; "S"]; ["G"; "Z"]]%string
  /\ get_path_as_string [["G"; "X"; "Y"; "S"]; ["G"; "Z"]]%string = "G-X-Y-S|G-Z"%string
  /\ get_path_as_list "G-X|Y" = Err ValueError.
Proof. repeat split. Qed.

(* The empty path does not survive the round trip. *)
Theorem C17_empty_path_refuted : exists p, get_path_as_list (get_path_as_string p) <> Ok p.
Proof. exists []. vm_compute. discriminate. Qed.
Print Assumptions C17_empty_path_refuted.

(* ================= C18 ================= *)
(* states reached by a constructor call with distinct names followed by any sequence of
   calls (failing ones included), the caller's own list being left alone *)
Definition reachable_by (k : kpoints) (ops : list op) : Prop :=
  exists rcell coordinates names labs path n k0,
    init rcell coordinates names labs path n = Ok k0 /\
    (forall ns, names = Some ns -> NoDup ns) /\
    Forall (fun o => outer o = false) ops /\ k = run k0 ops.
Definition reachable (k : kpoints) : Prop := exists ops, reachable_by k ops.

Lemma reachable_consistent k : reachable k -> consistent k.
Proof.
  intros (ops & rc & cs & ns & ls & p & n & k0 & E & ND & F & ->).
  apply run_consistent; auto. eapply init_consistent; eauto.
Qed.

Theorem C18_consistent : forall k ops, reachable_by k ops ->
  NoDup (k_names k) /\
  map fst (k_coords k) = k_names k /\ map fst (k_labels k) = k_names k /\
  Forall (fun sp => (2 <= length sp)%nat) (k_path k) /\
  (forall s, In s (concat (k_path k)) -> In s (k_names k) \/ In (RemovePoint s) ops).
Proof.
  intros k ops H. destruct (reachable_consistent k (ex_intro _ ops H)) as (A & B & C & D).
  destruct H as (rc & cs & ns & ls & p & n & k0 & E & ND & F & ->).
  destruct (init_consistent _ _ _ _ _ _ _ E ND) as [G1 G2].
  split; [exact A|]. split; [exact B|]. split; [exact C|]. split; [exact D|].
  apply run_path_known; auto.
Qed.
Print Assumptions C18_consistent.

Theorem C18_failing_call_changes_nothing : forall k o k' e, reachable k -> outer o = false ->
  step k o = (k', Some e) -> k' = k.
Proof.
  intros k o k' e R O H. destruct (reachable_consistent k R) as (N & C & L & P).
  destruct k as [rc names coords labs path n sh]. cbn [k_names k_coords k_labels k_path] in *.
  destruct o as [name c lab rel|name|p|a|name]; try discriminate; unfold step in H.
  - destruct (mem name names); [congruence|]. destruct (if rel then Ok c else do i <- minv rc; Ok (vmat c i)); congruence.
  - destruct (mem name names) eqn:M; [|congruence]. rewrite C, L, M in H. discriminate.
  - destruct (check_path names coords p); congruence.
  - destruct a; congruence.
Qed.
Print Assumptions C18_failing_call_changes_nothing.

(* Adding a point: refused iff the name is taken (or the cell is degenerate when an
   absolute coordinate has to be converted); otherwise exactly that point appears. *)
Theorem C18_add_point : forall k name c label relative, reachable k ->
  let '(k', err) := step k (AddPoint name c label relative) in
  (In name (k_names k) -> err = Some ValueError) /\
  (~ In name (k_names k) -> relative = true \/ det (k_rcell k) <> 0 -> err = None /\
     k_names k' = k_names k ++ [name] /\
     (exists v, lookup name (k_coords k') = Some v /\ (relative = true -> v = c) /\
                (relative = false -> vmat v (k_rcell k) = c)) /\
     lookup name (k_labels k') = Some (match label with Some l => l | None => name end) /\
     (forall s, s <> name -> lookup s (k_coords k') = lookup s (k_coords k) /\ lookup s (k_labels k') = lookup s (k_labels k)) /\
     k_path k' = k_path k /\ k_n k' = k_n k).
Proof.
  intros k name c label rel R. destruct (reachable_consistent k R) as (N & C & L & P).
  destruct k as [rc names coords labs path n sh]. cbn [k_names k_coords k_labels k_path k_rcell k_n] in *.
  unfold step. destruct (mem name names) eqn:M.
  - apply mem_true in M. split; [auto|tauto].
  - apply mem_false in M.
    assert (G : rel = true \/ det rc <> 0 -> exists v, (if rel then Ok c else do i <- minv rc; Ok (vmat c i)) = Ok v /\
      (rel = true -> v = c) /\ (rel = false -> vmat v rc = c)).
    { destruct rel; intros H; [exists c; repeat split; auto; discriminate|]. destruct H as [H|H]; [discriminate|].
      exists (vmat c (minv_total rc)). rewrite (proj2 (minv_ok rc (minv_total rc))) by auto. cbn. repeat split; [discriminate|].
      intros _. rewrite vmat_mmul, minv_l, vmat_id by auto. reflexivity. }
    destruct (if rel then Ok c else do i <- minv rc; Ok (vmat c i)) as [v|e] eqn:E.
    + split; [tauto|]. intros _ H. destruct (G H) as (w & Q & G1 & G2). injection Q as <-.
      repeat split; cbn [k_names k_coords k_labels k_path k_n]; auto.
      * exists v. rewrite lookup_set, String.eqb_refl. auto.
      * rewrite lookup_set, String.eqb_refl. auto.
      * rewrite lookup_set. destruct (String.eqb_spec s name); congruence.
      * rewrite lookup_set. destruct (String.eqb_spec s name); congruence.
    + split; [tauto|]. intros _ H. destruct (G H) as (w & Q & _). discriminate.
Qed.
Print Assumptions C18_add_point.

Theorem C18_remove_point : forall k name, reachable k ->
  let '(k', err) := step k (RemovePoint name) in
  err = None /\ ~ In name (k_names k') /\
  (forall s, s <> name -> (In s (k_names k') <-> In s (k_names k)) /\
     lookup s (k_coords k') = lookup s (k_coords k) /\ lookup s (k_labels k') = lookup s (k_labels k)) /\
  k_path k' = k_path k /\ k_n k' = k_n k.
Proof.
  intros k name R. destruct (reachable_consistent k R) as (N & C & L & P).
  destruct k as [rc names coords labs path n sh]. cbn [k_names k_coords k_labels k_path k_rcell k_n] in *.
  unfold step. destruct (mem name names) eqn:M.
  - rewrite C, L, M. cbn [k_names k_coords k_labels k_path k_n]. split; auto. split; [rewrite remove_first_in by auto; tauto|].
    split; [|auto]. intros s Hs. rewrite remove_first_in by auto.
    rewrite !lookup_del by (rewrite ?C, ?L; auto). destruct (String.eqb_spec s name); [contradiction|]. tauto.
  - apply mem_false in M. cbn [k_names k_coords k_labels k_path k_n]. repeat split; auto.
Qed.
Print Assumptions C18_remove_point.

(* Assigning a path: accepted only if all its names are known and each sub-path has at
   least two, and then it is the path; a string is read as get_path_as_list does. *)
Theorem C18_set_path : forall k p, reachable k ->
  let '(k', err) := step k (SetPath p) in
  (err = None -> incl (concat (k_path k')) (k_names k) /\ long_enough (k_path k') /\
     (forall s, p = PathStr s -> get_path_as_string (k_path k') = s) /\
     (forall l, p = PathList (map SubList l) -> k_path k' = l)) /\
  (forall l, p = PathList (map SubList l) -> long_enough l -> incl (concat l) (k_names k) -> err = None) /\
  (forall e, err = Some e -> e = ValueError \/ (e = TypeError /\ p = PathOther)).
Proof.
  intros k p R. destruct (reachable_consistent k R) as (N & C & L & P).
  destruct k as [rc names coords labs path n sh]. cbn [k_names k_coords k_labels k_path k_rcell k_n] in *.
  unfold step.
  assert (ML : forall l r, mapM read_subpath (map SubList l) = Ok r -> r = l).
  { induction l as [|sp l IH]; cbn [map mapM read_subpath]; intros r H; [congruence|]. destruct (Nat.ltb (length sp) 2); [discriminate|]. cbn [bind] in H.
    destruct (mapM read_subpath (map SubList l)) as [r'|]; [|discriminate]. cbn [bind] in H. injection H as <-. rewrite (IH r'); auto. }
  assert (MO : forall l, long_enough l -> mapM read_subpath (map SubList l) = Ok l).
  { induction 1 as [|sp l Hs Hl IH]; cbn [map mapM read_subpath]; [reflexivity|]. destruct (Nat.ltb_spec (length sp) 2); [lia|]. rewrite IH. reflexivity. }
  destruct (check_path names coords p) as [l|e'] eqn:E; cbn [k_path]; (split; [|split]).
  - intros _. apply check_path_ok in E. destruct E as (E1 & E2 & E3). split; [auto|]. split; [auto|]. split.
    + intros s ->. apply C17_string_round_trip. exact E3.
    + intros l' ->. cbn [read_path] in E3. apply ML. auto.
  - auto.
  - discriminate.
  - discriminate.
  - intros l -> G1 G2. exfalso. unfold check_path in E. cbn [read_path] in E. rewrite MO in E by auto. cbn [bind] in E.
    rewrite (proj2 (forallb_mem _ _) G2) in E. discriminate.
  - intros e H. injection H as <-.
    unfold check_path in E. destruct (read_path p) as [l|e2] eqn:F; cbn [bind] in E.
    + destruct (forallb _ (List.concat l)); [discriminate|]. rewrite C, (proj2 (forallb_mem names names)) in E by (intros x; auto).
      left. congruence.
    + injection E as ->. destruct p as [s|ls|]; cbn [read_path] in F; [left; eapply collect_err; eauto| |right; split; congruence].
      left. clear - F. induction ls as [|a ls IH]; [discriminate|]. cbn [mapM] in F. destruct (read_subpath a) as [x|e] eqn:G; cbn [bind] in F.
      * destruct (mapM read_subpath ls); [discriminate|]. cbn [bind] in F. apply IH. congruence.
      * destruct a as [l|s|]; cbn [read_subpath] in G; [destruct (Nat.ltb _ 2)|destruct (Nat.ltb _ 2)|]; congruence.
Qed.
Print Assumptions C18_set_path.

(* The default path K1-K2-...-KN, and the constructor's refusal of fewer than two points. *)
Theorem C18_default_path : forall rcell coordinates names labs n k,
  (forall ns, names = Some ns -> Forall plain ns) ->
  init rcell coordinates names labs None n = Ok k -> k_path k = [k_names k] /\ (2 <= length coordinates)%nat.
Proof.
  intros rc cs names labs n k PL H. destruct (init_inv _ _ _ _ _ _ _ H) as (ns & ls & L1 & L2 & En & El & Er & Ek & Ec & Elb & _ & P).
  apply check_path_ok in P. destruct P as (P1 & _ & P3). rewrite Ek. cbn [read_path] in P3.
  assert (Pl : Forall plain ns).
  { destruct names as [ns'|]; [subst; apply PL; reflexivity|]. rewrite En. unfold enum_names. rewrite Forall_map. apply Forall_forall. intros i _.
    split; cbn [append free]; (split; [discriminate|]); rewrite app_str_nil; (apply digits_free; [vm_compute; lia|apply dec_digits]). }
  destruct (Nat.le_gt_cases 2 (length ns)) as [G|G].
  - pose proof (C17_list_round_trip [ns]) as RT. unfold get_path_as_string in RT. cbn [map join] in RT.
    rewrite RT in P3; [|discriminate|constructor; auto]. split; [congruence|lia].
  - exfalso. unfold get_path_as_list in P3.
    destruct ns as [|a [|b ns]]; [cbn in P3; discriminate| |cbn [List.length] in G; lia].
    cbn [join] in P3. inversion Pl as [|? ? [Pa Pb] _]; subst. rewrite split_free in P3 by auto. cbn [collect_subpaths] in P3.
    rewrite split_free in P3 by auto. discriminate.
Qed.
Print Assumptions C18_default_path.

Theorem C18_too_few_points_raises : forall rcell coordinates n, (length coordinates < 2)%nat ->
  init rcell coordinates None None None n = Err ValueError.
Proof.
  intros rc [|a [|b cs]] n H; [reflexivity|reflexivity|cbn in H; lia].
Qed.
Print Assumptions C18_too_few_points_raises.

(* A concrete history. *)
Definition example_ops : list op :=
  [AddPoint "G" vzero None true; AddPoint "K1" vzero None true; RemovePoint "K1";
   SetPath (PathStr "K1-G"); SetPath (PathStr "G-K2|K2-G"); SetN (NInt 5); SetN NOther].
Definition example_k0 : kpoints :=
  match init mid [V3 (1 / 2) 0 0; V3 0 (1 / 2) 0] None None None 100 with Ok k => k | Err _ => Kp mid [] [] [] [] 0 false end.
Example C18_case : reachable_by (run example_k0 example_ops) example_ops /\
  k_names (run example_k0 example_ops) = ["K2"; "G"]%string /\
  k_path (run example_k0 example_ops) = [["G"; "K2"]; ["K2"; "G"]]%string /\ k_n (run example_k0 example_ops) = 5%Z.
Proof.
  split; [|repeat split].
  exists mid, [V3 (1 / 2) 0 0; V3 0 (1 / 2) 0], None, None, None, 100%Z, example_k0.
  split; [reflexivity|]. split; [discriminate|]. split; [repeat constructor|reflexivity].
Qed.

(* n is checked to be an int but not to be non-negative: points() then fails. *)
Theorem C18_n_nonnegative_refuted : exists k ops, reachable_by k ops /\ (k_n k < 0)%Z /\ points k false = Err ValueError.
Proof.
  exists (run example_k0 [SetN (NInt (-3))]), [SetN (NInt (-3))]. split; [|split; [reflexivity|reflexivity]].
  exists mid, [V3 (1 / 2) 0 0; V3 0 (1 / 2) 0], None, None, None, 100%Z, example_k0.
  split; [reflexivity|]. split; [discriminate|]. split; [repeat constructor|reflexivity].
Qed.
Print Assumptions C18_n_nonnegative_refuted.

(* With duplicate names (accepted by the constructor) a failing call does change the state. *)
Theorem C18_duplicate_names_refuted : exists k0 k k',
  init mid [vzero; vzero; vzero] (Some ["A"; "B"; "A"]%string) None None 1 = Ok k0 /\
  step k0 (RemovePoint "A") = (k, None) /\ step k (RemovePoint "A") = (k', Some KeyError) /\ k' <> k.
Proof.
  eexists _, _, _. split; [reflexivity|]. split; [reflexivity|]. split; [reflexivity|]. discriminate.
Qed.
Print Assumptions C18_duplicate_names_refuted.

(* The list passed as names is not copied: when the caller appends to it, a name without
   coordinates appears. *)
Theorem C18_shared_list_refuted : exists k0,
  init mid [vzero; vzero] (Some ["A"; "B"]%string) None None 1 = Ok k0 /\
  let k := run k0 [CallerAppends "C"] in In "C"%string (k_names k) /\ lookup "C" (k_coords k) = None /\
  hs_table "" (fun _ => ""%string) (fun s => s) k = Err KeyError.
Proof. eexists. split; [reflexivity|]. cbn. repeat split; auto. Qed.
Print Assumptions C18_shared_list_refuted.

(* Without the argument names the object owns its list: whatever the caller appends to lists of theirs, the
   object is what the calls on it alone make it, and it stays consistent. *)
Theorem C18_own_list : forall rcell coordinates labs path n k0 ops, init rcell coordinates None labs path n = Ok k0 ->
  run k0 ops = run k0 (filter (fun o => negb (outer o)) ops) /\ consistent (run k0 ops).
Proof.
  intros rcell cs labs path n k0 ops E.
  assert (SH : k_shared k0 = false).
  { revert E. unfold init. cbv zeta. intros E. match type of E with bind ?r _ = _ => destruct r as [ls|] eqn:EL; [|discriminate] end. cbn [bind] in E. match type of E with bind ?r _ = _ => destruct r as [l|] eqn:EP; [|discriminate] end. cbn [bind] in E. injection E as <-. reflexivity. }
  assert (ST : forall k o, k_shared k = false -> k_shared (fst (step k o)) = false).
  { intros [rc ns co la pa m sh] o S. cbn [k_shared] in S. subst sh. destruct o as [name c lab rel|name|p|a|name]; unfold step.
    - destruct (mem name ns); [reflexivity|]. destruct (if rel then Ok c else do i <- minv rc; Ok (vmat c i)); reflexivity.
    - destruct (mem name ns); [|reflexivity]. cbv zeta. destruct (mem name (keys co)); [|reflexivity]. destruct (mem name (keys la)); reflexivity.
    - destruct (check_path ns co p); reflexivity.
    - destruct a; reflexivity.
    - reflexivity. }
  assert (RU : forall ops k, k_shared k = false -> run k ops = run k (filter (fun o => negb (outer o)) ops)).
  { clear - ST. induction ops as [|o ops IH]; intros k S; [reflexivity|]. cbn [filter]. change (run k (o :: ops)) with (run (fst (step k o)) ops). destruct (outer o) eqn:O; cbn [negb].
    - destruct o; try discriminate. assert (Q : fst (step k (CallerAppends name)) = k) by (destruct k as [rc ns co la pa m sh]; cbn in S; subst sh; reflexivity). rewrite Q. apply IH, S.
    - change (run k (o :: filter (fun o => negb (outer o)) ops)) with (run (fst (step k o)) (filter (fun o => negb (outer o)) ops)). apply IH, ST, S. }
  split; [apply RU, SH|]. rewrite (RU ops k0 SH). apply run_consistent; [eapply init_consistent; eauto; discriminate|]. apply Forall_forall. intros o I. apply filter_In in I. destruct I as [_ I]. destruct (outer o); [discriminate|reflexivity].
Qed.
Print Assumptions C18_own_list.
(* With duplicate names the message about an unknown point in a path cannot be written: KeyError, not ValueError *)
Theorem C18_duplicate_path_refuted : exists k0 k, init mid [vzero; vzero; vzero] (Some ["A"; "B"; "A"]%string) None None 1 = Ok k0 /\
  step k0 (RemovePoint "A") = (k, None) /\ step k (SetPath (PathStr "B-Z")) = (k, Some KeyError).
Proof. eexists _, _. split; [reflexivity|]. split; reflexivity. Qed.
Print Assumptions C18_duplicate_path_refuted.

(* ================= C19 ================= *)
Definition path_known (k : kpoints) : Prop := incl (concat (k_path k)) (k_names k).

Definition Xof (d : dict vec) (s : string) : vec := match lookup s d with Some v => v | None => vzero end.
Lemma known_ok k : consistent k -> path_known k -> Forall (ok (k_coords k) (Xof (k_coords k))) (concat (k_path k)).
Proof.
  intros (_ & C & _) K. apply Forall_forall. intros s Hs. apply K in Hs. rewrite <- C in Hs. apply lookup_in in Hs.
  destruct Hs as [v Hv]. unfold ok, Xof. rewrite Hv. reflexivity.
Qed.
Lemma known_labels k : consistent k -> path_known k -> forall s, In s (concat (k_path k)) ->
  lookup s (k_labels k) = Some (match lookup s (k_labels k) with Some v => v | None => EmptyString end).
Proof.
  intros (_ & _ & C & _) K s Hs. apply K in Hs. rewrite <- C in Hs. apply lookup_in in Hs. destruct Hs as [v ->]. reflexivity.
Qed.

Theorem C19_known_path_works : forall k relative, reachable k -> (0 <= k_n k)%Z -> path_known k ->
  (exists l, labels k = Ok l) /\ (exists t, ticks k relative = Ok t) /\
  (exists p, points k relative = Ok p) /\ (exists f, flat_points k relative = Ok f).
Proof.
  intros k rel R Hn K. pose proof (reachable_consistent k R) as C. pose proof C as (_ & _ & CL & P).
  pose proof (known_ok k C K) as F.
  assert (D : k_path k = [] \/ k_path k <> []) by (destruct (k_path k); [left; auto|right; discriminate]). repeat split.
  - destruct (labels_loop_ok (k_labels k) (k_path k) P ltac:(rewrite CL; exact K) true [] ltac:(discriminate)) as (r & E & _). eauto.
  - unfold ticks. destruct D as [D|D]; [rewrite D; cbn; eauto|].
    rewrite (ticks_first _ _ _ _ D P F). eauto.
  - unfold points. rewrite (points_loop_ok _ _ _ _ Hn _ _ P F). eauto.
  - unfold flat_points. destruct D as [D|D]; [rewrite D; cbn; eauto|].
    rewrite (flat_first _ _ _ _ Hn _ D P F). eauto.
Qed.
Print Assumptions C19_known_path_works.

Theorem C19_unknown_path_raises : forall k relative, reachable k -> (0 <= k_n k)%Z -> ~ path_known k ->
  labels k = Err KeyError /\ ticks k relative = Err KeyError /\
  points k relative = Err KeyError /\ flat_points k relative = Err KeyError.
Proof.
  intros k rel R Hn K. pose proof (reachable_consistent k R) as (_ & CC & CL & P). repeat split.
  - apply labels_loop_err; auto; [rewrite CL; auto|discriminate].
  - apply ticks_loop_bad; auto. rewrite CC; auto.
  - apply points_loop_bad; auto. rewrite CC; auto.
  - apply flat_loop_bad; auto; [left; reflexivity|rewrite CC; auto].
Qed.
Print Assumptions C19_unknown_path_raises.

(* Such states are reached by removing a point that the path uses... *)
Theorem C19_remove_keeps_working_refuted : exists k ops, reachable_by k ops /\ labels k = Err KeyError.
Proof.
  exists (run example_k0 [RemovePoint "K1"]), [RemovePoint "K1"]. split; [|reflexivity].
  exists mid, [V3 (1 / 2) 0 0; V3 0 (1 / 2) 0], None, None, None, 100%Z, example_k0.
  split; [reflexivity|]. split; [discriminate|]. split; [repeat constructor|reflexivity].
Qed.
Print Assumptions C19_remove_keeps_working_refuted.
(* ... and only so. *)
Theorem C19_only_by_removal : forall k ops, reachable_by k ops -> ~ path_known k -> exists s, In (RemovePoint s) ops.
Proof.
  intros k ops H K. destruct (C18_consistent k ops H) as (_ & _ & _ & _ & A).
  destruct (forallb (fun s => mem s (k_names k)) (concat (k_path k))) eqn:E; [apply forallb_mem in E; contradiction|].
  apply Bool.not_true_iff_false in E. destruct (existsb (fun s => negb (mem s (k_names k))) (concat (k_path k))) eqn:F.
  - apply existsb_exists in F. destruct F as (s & Hs & M). apply Bool.negb_true_iff, mem_false in M.
    exists s. destruct (A s Hs); auto; contradiction.
  - exfalso. apply E. apply forallb_forall. intros s Hs. destruct (mem s (k_names k)) eqn:M; auto.
    assert (T : existsb (fun s => negb (mem s (k_names k))) (concat (k_path k)) = true) by (apply existsb_exists; exists s; rewrite M; auto).
    congruence.
Qed.
Print Assumptions C19_only_by_removal.

(* ================= C20 ================= *)
Definition segment_count (path : list (list string)) : nat :=
  fold_right (fun sp acc => (length sp - 1 + acc)%nat) 0%nat path.

Lemma points_eq k rel : consistent k -> path_known k -> (0 <= k_n k)%Z -> k_path k <> [] ->
  let X := Xof (k_coords k) in let cell := basis k rel in let segs := segments (k_path k) in
  labels k = Ok (labels_spec (fun s => match lookup s (k_labels k) with Some v => v | None => EmptyString end) (k_path k)) /\
  ticks k rel = Ok (0 :: accum X cell 0 segs) /\
  points k rel = Ok (Some (concat (map (lin X cell (k_n k)) segs))) /\
  flat_points k rel = Ok (Some (concat (frows X cell (k_n k) 0 segs))).
Proof.
  intros C K Hn NE X cell segs. pose proof C as (_ & _ & _ & P). pose proof (known_ok k C K) as F.
  repeat split.
  - apply labels_first; auto. apply known_labels; auto.
  - apply ticks_first; auto.
  - unfold points. rewrite (points_loop_ok _ _ _ _ Hn _ _ P F). fold X cell segs.
    assert (NS : segs <> []).
    { unfold segs. destruct (k_path k) as [|[|a [|b sp]] path]; [congruence|inversion P; cbn in *; lia|inversion P; cbn in *; lia|discriminate]. }
    destruct segs; [congruence|reflexivity].
  - apply flat_first; auto.
Qed.

Theorem C20_sizes : forall k relative ls ts ps fs, reachable k -> (0 <= k_n k)%Z -> k_path k <> [] ->
  labels k = Ok ls -> ticks k relative = Ok ts -> points k relative = Ok ps -> flat_points k relative = Ok fs ->
  length ls = (1 + segment_count (k_path k))%nat /\
  length ts = (1 + segment_count (k_path k))%nat /\
  (exists p, ps = Some p /\ Z.of_nat (length p) = (Z.of_nat (segment_count (k_path k)) * (k_n k + 2))%Z) /\
  (exists f, fs = Some f /\ Z.of_nat (length f) = (Z.of_nat (segment_count (k_path k)) * (k_n k + 2))%Z).
Proof.
  intros k rel ls ts ps fs R Hn NE E1 E2 E3 E4. pose proof (reachable_consistent k R) as C.
  assert (K : path_known k).
  { destruct (forallb (fun s => mem s (k_names k)) (concat (k_path k))) eqn:E; [apply forallb_mem in E; exact E|].
    assert (K : ~ path_known k) by (intros J; apply forallb_mem in J; unfold path_known in *; congruence).
    destruct (C19_unknown_path_raises k rel R Hn K) as (Q & _). congruence. }
  pose proof C as (_ & _ & _ & P).
  destruct (points_eq k rel C K Hn NE) as (Q1 & Q2 & Q3 & Q4).
  rewrite Q1 in E1. rewrite Q2 in E2. rewrite Q3 in E3. rewrite Q4 in E4.
  injection E1 as <-. injection E2 as <-. injection E3 as <-. injection E4 as <-.
  assert (SC : length (segments (k_path k)) = segment_count (k_path k)) by (apply segs_length; auto).
  assert (W2 : W (k_n k) = Z.to_nat (k_n k + 2)) by reflexivity.
  split; [rewrite labels_spec_length by auto; lia|]. split; [cbn [List.length]; rewrite accum_length; lia|]. split.
  - eexists. split; [reflexivity|]. rewrite (concat_length _ (W (k_n k))).
    + rewrite map_length, SC, Nat2Z.inj_mul, W2, Z2Nat.id by lia. reflexivity.
    + rewrite Forall_map. apply Forall_forall. intros s _. apply lin_length.
  - eexists. split; [reflexivity|]. rewrite (concat_length _ (W (k_n k))) by apply frows_width.
    rewrite frows_length, SC, Nat2Z.inj_mul, W2, Z2Nat.id by lia. reflexivity.
Qed.
Print Assumptions C20_sizes.

(* The content of labels: labels of the points in order, the last point of a sub-path and
   the first of the next one merged as "X|Y". *)
Theorem C20_labels_content : forall k ls, reachable k -> k_path k <> [] -> labels k = Ok ls ->
  exists lab, (forall s, In s (concat (k_path k)) -> lookup s (k_labels k) = Some (lab s)) /\
  ls = labels_spec lab (k_path k).
Proof.
  intros k ls R NE E. pose proof (reachable_consistent k R) as C. pose proof C as (_ & _ & CL & P).
  assert (K : path_known k).
  { destruct (forallb (fun s => mem s (k_names k)) (concat (k_path k))) eqn:F; [apply forallb_mem in F; exact F|].
    assert (K : ~ path_known k) by (intros J; apply forallb_mem in J; unfold path_known in *; congruence).
    unfold labels in E. rewrite labels_loop_err in E; auto; [discriminate|rewrite CL; exact K|discriminate]. }
  exists (fun s => match lookup s (k_labels k) with Some v => v | None => EmptyString end).
  split; [apply known_labels; auto|]. unfold labels in E.
  rewrite (labels_first _ _ _ NE P (known_labels k C K)) in E. congruence.
Qed.
Print Assumptions C20_labels_content.
Example C20_case : labels (run example_k0 example_ops) = Ok ["G"; "K$_2$|K$_2$"; "G"]%string
  /\ (exists ps, points (run example_k0 example_ops) true = Ok (Some ps) /\ length ps = 14%nat).
Proof. split; [reflexivity|]. eexists. split; [reflexivity|reflexivity]. Qed.

(* With an empty path (accepted) there are no labels, and points() is None. *)
Theorem C20_empty_path_refuted : exists k ops, reachable_by k ops /\ labels k = Ok [] /\ points k false = Ok None.
Proof.
  exists (run example_k0 [SetPath (PathList [])]), [SetPath (PathList [])]. split; [|split; reflexivity].
  exists mid, [V3 (1 / 2) 0 0; V3 0 (1 / 2) 0], None, None, None, 100%Z, example_k0.
  split; [reflexivity|]. split; [discriminate|]. split; [repeat constructor|reflexivity].
Qed.
Print Assumptions C20_empty_path_refuted.

(* ================= C22 ================= *)
(* Position (k-point) of a name, relative or absolute. *)
Definition position (k : kpoints) (relative : bool) (s : string) (v : vec) : Prop :=
  exists c, lookup s (k_coords k) = Some c /\ v = (if relative then c else vmat c (k_rcell k)).

Lemma position_Y k rel s : consistent k -> In s (k_names k) ->
  position k rel s (Y (Xof (k_coords k)) (basis k rel) s).
Proof.
  intros (_ & C & _) H. rewrite <- C in H. apply lookup_in in H. destruct H as [c Hc].
  exists c. split; auto. unfold Y, Xof, basis. rewrite Hc. destruct rel; [apply vmat_id|reflexivity].
Qed.
Lemma position_fun k rel s v w : position k rel s v -> position k rel s w -> v = w.
Proof. intros (a & A & ->) (b & B & ->). rewrite A in B. injection B as <-. reflexivity. Qed.
Lemma segment_names path s : In s (segments path) -> In (fst s) (concat path) /\ In (snd s) (concat path).
Proof.
  intros H. apply in_flat_map in H. destruct H as (sp & Hsp & H). destruct s as [a b].
  assert (incl (tl sp) sp) by (destruct sp; [intros x []|intros x Hx; right; auto]).
  split; apply in_concat; exists sp; split; auto; cbn.
  - eapply in_combine_l; eauto.
  - apply H0. eapply in_combine_r; eauto.
Qed.

Lemma must_be_known k rel : reachable k -> (0 <= k_n k)%Z -> (exists ps, points k rel = Ok ps) -> path_known k.
Proof.
  intros R Hn [ps E]. destruct (forallb (fun s => mem s (k_names k)) (concat (k_path k))) eqn:F; [apply forallb_mem in F; exact F|].
  assert (K : ~ path_known k) by (intros J; apply forallb_mem in J; unfold path_known in *; congruence).
  destruct (C19_unknown_path_raises k rel R Hn K) as (_ & _ & Q & _). congruence.
Qed.

Theorem C22_interpolation : forall k relative ps i a b va vb j, reachable k -> (0 <= k_n k)%Z ->
  points k relative = Ok (Some ps) -> nth_error (segments (k_path k)) i = Some (a, b) ->
  position k relative a va -> position k relative b vb -> (0 <= j <= k_n k + 1)%Z ->
  nth_error ps (i * Z.to_nat (k_n k + 2) + Z.to_nat j) =
    Some (vadd va (vscale (IZR j / IZR (k_n k + 1)) (vsub vb va))).
Proof.
  intros k rel ps i a b va vb j R Hn E S Pa Pb Hj. pose proof (reachable_consistent k R) as C.
  assert (K : path_known k) by (eapply must_be_known; eauto).
  assert (NE : k_path k <> []) by (intros Q; rewrite Q in S; destruct i; discriminate).
  destruct (points_eq k rel C K Hn NE) as (_ & _ & Q & _). rewrite Q in E. injection E as <-.
  destruct (segment_names _ _ (nth_error_In _ _ S)) as [Ia Ib]. cbn [fst snd] in *.
  rewrite <- (position_fun _ _ _ _ _ (position_Y k rel a C (K a Ia)) Pa).
  rewrite <- (position_fun _ _ _ _ _ (position_Y k rel b C (K b Ib)) Pb).
  rewrite (nth_concat _ (W (k_n k))) with (row := lin (Xof (k_coords k)) (basis k rel) (k_n k) (a, b)).
  - rewrite nth_lin by (unfold W; lia). cbn [fst snd]. rewrite INR_IZR_INZ, Z2Nat.id, plus_IZR by lia. reflexivity.
  - rewrite Forall_map. apply Forall_forall. intros s _. apply lin_length.
  - unfold W. lia.
  - rewrite nth_error_map, S. reflexivity.
Qed.
Print Assumptions C22_interpolation.

(* the two ends of every segment are exactly the high-symmetry points *)
Theorem C22_segment_ends : forall k relative ps i a b va vb, reachable k -> (0 <= k_n k)%Z ->
  points k relative = Ok (Some ps) -> nth_error (segments (k_path k)) i = Some (a, b) ->
  position k relative a va -> position k relative b vb ->
  nth_error ps (i * Z.to_nat (k_n k + 2)) = Some va /\
  nth_error ps (i * Z.to_nat (k_n k + 2) + Z.to_nat (k_n k + 1)) = Some vb.
Proof.
  intros k rel ps i a b va vb R Hn E S Pa Pb. split.
  - rewrite <- (Nat.add_0_r (i * _)). change 0%nat with (Z.to_nat 0).
    rewrite (C22_interpolation k rel ps i a b va vb) by (auto; lia). f_equal.
    replace (0 / IZR (k_n k + 1)) with 0 by (unfold Rdiv; ring). clear; vring.
  - rewrite (C22_interpolation k rel ps i a b va vb) by (auto; lia). f_equal.
    replace (IZR (k_n k + 1) / IZR (k_n k + 1)) with 1; [clear; vring|].
    field. rewrite plus_IZR. apply IZR_le in Hn. lra.
Qed.
Print Assumptions C22_segment_ends.

Theorem C22_relative_times_rcell : forall k pr pa, reachable k -> (0 <= k_n k)%Z ->
  points k true = Ok (Some pr) -> points k false = Ok (Some pa) ->
  pa = map (fun p => vmat p (k_rcell k)) pr.
Proof.
  intros k pr pa R Hn E1 E2. pose proof (reachable_consistent k R) as C.
  assert (K : path_known k) by (eapply must_be_known; eauto).
  assert (NE : k_path k <> []) by (intros Q; unfold points in E1; rewrite Q in E1; discriminate).
  destruct (points_eq k true C K Hn NE) as (_ & _ & Q1 & _). rewrite Q1 in E1. injection E1 as <-.
  destruct (points_eq k false C K Hn NE) as (_ & _ & Q2 & _). rewrite Q2 in E2. injection E2 as <-.
  rewrite concat_map, map_map. f_equal. apply map_ext. intros s. unfold lin. rewrite map_map. apply map_ext. intros i.
  unfold Y, basis. rewrite !vmat_id, vmat_add, vmat_scale, vmat_sub. reflexivity.
Qed.
Print Assumptions C22_relative_times_rcell.

(* ================= C21 ================= *)
Definition nondecreasing (l : list R) : Prop :=
  forall i j x y, (i <= j)%nat -> nth_error l i = Some x -> nth_error l j = Some y -> x <= y.

Lemma nondec_accum X cell t segs : nondecreasing (t :: accum X cell t segs).
Proof.
  assert (Low : forall segs t j y, nth_error (t :: accum X cell t segs) j = Some y -> t <= y).
  { clear. induction segs as [|s segs IH]; intros t [|j] y H; cbn in H; try (injection H as <-; lra); try (destruct j; discriminate).
    apply (IH (len X cell s + t)) in H. pose proof (len_nonneg X cell s). lra. }
  revert t; induction segs as [|s segs IH]; intros t i j x y Hij Ex Ey.
  - destruct i, j; cbn in *; try (destruct i; discriminate); try (destruct j; discriminate). assert (x = y) by congruence. lra.
  - destruct i as [|i].
    + cbn in Ex. injection Ex as <-. eapply Low; eauto.
    + destruct j as [|j]; [lia|]. cbn [accum nth_error] in Ex, Ey. eapply (IH (len X cell s + t)); [|exact Ex|exact Ey]. lia.
Qed.

Theorem C21_ticks_monotone : forall k relative ts, reachable k -> (0 <= k_n k)%Z -> k_path k <> [] ->
  ticks k relative = Ok ts -> nth_error ts 0 = Some 0 /\ nondecreasing ts.
Proof.
  intros k rel ts R Hn NE E. pose proof (reachable_consistent k R) as C.
  assert (K : path_known k).
  { destruct (forallb (fun s => mem s (k_names k)) (concat (k_path k))) eqn:F; [apply forallb_mem in F; exact F|].
    assert (K : ~ path_known k) by (intros J; apply forallb_mem in J; unfold path_known in *; congruence).
    destruct (C19_unknown_path_raises k rel R Hn K) as (_ & Q & _). congruence. }
  destruct (points_eq k rel C K Hn NE) as (_ & Q & _). rewrite Q in E. injection E as <-.
  split; [reflexivity|apply nondec_accum].
Qed.
Print Assumptions C21_ticks_monotone.

(* Each flat coordinate is the tick at the start of its segment plus the distance of the
   k-point from the start of the segment. *)
Theorem C21_flat_alignment : forall k relative ts ps fs i a b, reachable k -> (0 <= k_n k)%Z ->
  ticks k relative = Ok ts -> points k relative = Ok (Some ps) -> flat_points k relative = Ok (Some fs) ->
  nth_error (segments (k_path k)) i = Some (a, b) ->
  let w := Z.to_nat (k_n k + 2) in
  exists t t', nth_error ts i = Some t /\ nth_error ts (S i) = Some t' /\
    nth_error fs (i * w) = Some t /\ nth_error fs (i * w + Z.to_nat (k_n k + 1)) = Some t' /\
    forall j p0 p, (j < w)%nat -> nth_error ps (i * w) = Some p0 -> nth_error ps (i * w + j) = Some p ->
      nth_error fs (i * w + j) = Some (t + norm (vsub p p0)).
Proof.
  intros k rel ts ps fs i a b R Hn E1 E2 E3 S w. pose proof (reachable_consistent k R) as C.
  assert (K : path_known k) by (eapply must_be_known; eauto).
  assert (NE : k_path k <> []) by (intros Q; rewrite Q in S; destruct i; discriminate).
  destruct (points_eq k rel C K Hn NE) as (_ & Q1 & Q2 & Q3).
  rewrite Q1 in E1. rewrite Q2 in E2. rewrite Q3 in E3. injection E1 as <-. injection E2 as <-. injection E3 as <-.
  set (X := Xof (k_coords k)) in *. set (cell := basis k rel) in *. set (n := k_n k) in *. set (segs := segments (k_path k)) in *.
  destruct (accum_nth X cell n segs 0 i (a, b) S) as (t & A1 & A2 & A3).
  exists t, (len X cell (a, b) + t). split; [exact A1|]. split; [exact A2|].
  assert (HR : forall j, (j < w)%nat -> nth_error (concat (frows X cell n 0 segs)) (i * w + j) = nth_error (row X cell n t (a, b)) j).
  { intros j Hj. apply (nth_concat _ w); auto. apply frows_width. }
  assert (HP : forall j, (j < w)%nat -> nth_error (concat (map (lin X cell n) segs)) (i * w + j) = nth_error (lin X cell n (a, b)) j).
  { intros j Hj. apply (nth_concat _ w); auto.
    - rewrite Forall_map. apply Forall_forall. intros s _. apply lin_length.
    - rewrite nth_error_map, S. reflexivity. }
  assert (Wp : (0 < w)%nat) by (unfold w; lia).
  assert (RW : forall j, (j < w)%nat -> nth_error (row X cell n t (a, b)) j =
     Some (norm (vsub (vadd (Y X cell a) (vscale (INR j / (IZR n + 1)) (vsub (Y X cell b) (Y X cell a)))) (Y X cell a)) + t)).
  { intros j Hj. unfold row. rewrite nth_error_map, nth_lin by exact Hj. reflexivity. }
  split; [|split].
  - rewrite <- (Nat.add_0_r (i * w)), HR by auto. rewrite RW by auto. f_equal. cbn [INR].
    match goal with |- norm ?v + t = t => replace v with vzero; [|generalize (Y X cell a) (Y X cell b) (IZR n + 1); clear; intros; unfold Rdiv; rewrite Rmult_0_l; vring] end.
    rewrite (proj2 (norm_zero_iff vzero)) by reflexivity. ring.
  - rewrite HR by (unfold w; lia). rewrite RW by (unfold w; lia). f_equal. f_equal. unfold len. cbn [fst snd]. f_equal.
    rewrite INR_IZR_INZ, Z2Nat.id, plus_IZR by lia. replace ((IZR n + 1) / (IZR n + 1)) with 1 by (field; apply IZR_le in Hn; lra).
    generalize (Y X cell a) (Y X cell b). clear. vring.
  - intros j p0 p Hj H0 Hp. rewrite HR by auto. rewrite RW by auto.
    rewrite <- (Nat.add_0_r (i * w)), HP, nth_lin in H0 by auto. rewrite HP, nth_lin in Hp by auto. cbn [fst snd] in *.
    injection H0 as <-. injection Hp as <-. f_equal. rewrite Rplus_comm. f_equal. f_equal. cbn [INR].
    generalize (Y X cell a) (Y X cell b). clear. intros. unfold Rdiv. rewrite Rmult_0_l. vring.
Qed.
Print Assumptions C21_flat_alignment.

Theorem C21_flat_monotone : forall k relative fs, reachable k -> (0 <= k_n k)%Z ->
  flat_points k relative = Ok (Some fs) -> nth_error fs 0 = Some 0 /\ nondecreasing fs.
Proof.
  intros k rel fs R Hn E. pose proof (reachable_consistent k R) as C.
  assert (K : path_known k).
  { destruct (forallb (fun s => mem s (k_names k)) (concat (k_path k))) eqn:F; [apply forallb_mem in F; exact F|].
    assert (K : ~ path_known k) by (intros J; apply forallb_mem in J; unfold path_known in *; congruence).
    destruct (C19_unknown_path_raises k rel R Hn K) as (_ & _ & _ & Q). congruence. }
  assert (NE : k_path k <> []) by (intros Q; unfold flat_points in E; rewrite Q in E; discriminate).
  destruct (points_eq k rel C K Hn NE) as (_ & _ & _ & Q). rewrite Q in E. injection E as <-.
  set (X := Xof (k_coords k)) in *. set (cell := basis k rel) in *. set (n := k_n k) in *.
  assert (NS : segments (k_path k) <> []).
  { pose proof C as (_ & _ & _ & P). destruct (k_path k) as [|[|a [|b sp]] path]; [congruence|inversion P; cbn in *; lia|inversion P; cbn in *; lia|discriminate]. }
  set (segs := segments (k_path k)) in *. clearbody segs. clear Q K C NE R.
  assert (RW : forall t s j, (j < W n)%nat -> nth_error (row X cell n t s) j = Some (INR j / (IZR n + 1) * len X cell s + t)).
  { intros t s j Hj. unfold row. rewrite nth_error_map, nth_lin by exact Hj. cbn [option_map]. f_equal. f_equal. unfold len.
    rewrite <- (Rabs_right (INR j / (IZR n + 1))) at 2.
    - rewrite <- norm_scale. f_equal. generalize (Y X cell (fst s)) (Y X cell (snd s)) (INR j / (IZR n + 1)). clear. vring.
    - apply Rle_ge. unfold Rdiv. apply Rmult_le_pos; [apply pos_INR|]. left. apply Rinv_0_lt_compat. apply IZR_le in Hn. lra. }
  assert (Low : forall segs t j y, nth_error (concat (frows X cell n t segs)) j = Some y -> t <= y).
  { induction segs0 as [|s segs0 IH]; intros t j y H; [destruct j; discriminate|]. cbn [frows List.concat] in H.
    pose proof (len_nonneg X cell s) as LN.
    destruct (Nat.lt_ge_cases j (W n)) as [G|G].
    - rewrite nth_error_app1 in H by (unfold row; rewrite map_length, lin_length; auto). rewrite RW in H by auto. injection H as <-.
      assert (0 <= INR j / (IZR n + 1)).
      { unfold Rdiv. apply Rmult_le_pos; [apply pos_INR|]. left. apply Rinv_0_lt_compat. apply IZR_le in Hn. lra. }
      nra.
    - rewrite nth_error_app2 in H by (unfold row; rewrite map_length, lin_length; auto). apply IH in H. lra. }
  split.
  - destruct segs as [|s segs]; [congruence|]. cbn [frows List.concat].
    assert (Wp : (0 < W n)%nat) by (unfold W; lia).
    rewrite nth_error_app1 by (unfold row; rewrite map_length, lin_length; auto). rewrite RW by auto. f_equal. cbn [INR]. unfold Rdiv. ring.
  - clear NS. generalize 0. induction segs as [|s segs IH]; intros t i j x y Hij Ex Ey; [destruct i; discriminate|].
    cbn [frows List.concat] in Ex, Ey. pose proof (len_nonneg X cell s) as LN.
    assert (LR : length (row X cell n t s) = W n) by (unfold row; rewrite map_length; apply lin_length).
    assert (D : 0 < IZR n + 1) by (apply IZR_le in Hn; lra).
    destruct (Nat.lt_ge_cases i (W n)) as [G|G]; destruct (Nat.lt_ge_cases j (W n)) as [G2|G2]; try lia.
    + rewrite nth_error_app1 in Ex, Ey by lia. rewrite RW in Ex, Ey by auto. injection Ex as <-. injection Ey as <-.
      apply le_INR in Hij. apply Rplus_le_compat_r, Rmult_le_compat_r; auto. apply Rmult_le_compat_r; auto. left. apply Rinv_0_lt_compat; auto.
    + rewrite nth_error_app1 in Ex by lia. rewrite nth_error_app2 in Ey by lia. rewrite RW in Ex by auto. injection Ex as <-.
      apply Low in Ey.
      assert (INR i / (IZR n + 1) <= 1).
      { apply (Rmult_le_reg_r (IZR n + 1)); auto. unfold Rdiv. rewrite Rmult_assoc, Rinv_l by lra. rewrite Rmult_1_r, Rmult_1_l.
        rewrite INR_IZR_INZ, <- plus_IZR. apply IZR_le. unfold W in G. lia. }
      nra.
    + rewrite nth_error_app2 in Ex, Ey by lia. eapply (IH (len X cell s + t)); [|exact Ex|exact Ey]. lia.
Qed.
Print Assumptions C21_flat_monotone.

(* Within a segment the flat step is the Cartesian distance of neighbouring k-points. *)
Theorem C21_flat_steps : forall k relative ps fs i j a b p q x y, reachable k -> (0 <= k_n k)%Z ->
  points k relative = Ok (Some ps) -> flat_points k relative = Ok (Some fs) ->
  nth_error (segments (k_path k)) i = Some (a, b) ->
  let w := Z.to_nat (k_n k + 2) in (S j < w)%nat ->
  nth_error ps (i * w + j) = Some p -> nth_error ps (i * w + S j) = Some q ->
  nth_error fs (i * w + j) = Some x -> nth_error fs (i * w + S j) = Some y ->
  y - x = norm (vsub q p).
Proof.
  intros k rel ps fs i j a b p q x y R Hn E2 E3 S w Hj Hp Hq Hx Hy. pose proof (reachable_consistent k R) as C.
  assert (K : path_known k) by (eapply must_be_known; eauto).
  assert (NE : k_path k <> []) by (intros Q; rewrite Q in S; destruct i; discriminate).
  destruct (points_eq k rel C K Hn NE) as (_ & Q1 & Q2 & Q3).
  rewrite Q2 in E2. rewrite Q3 in E3. injection E2 as <-. injection E3 as <-.
  set (X := Xof (k_coords k)) in *. set (cell := basis k rel) in *. set (n := k_n k) in *. set (segs := segments (k_path k)) in *.
  destruct (accum_nth X cell n segs 0 i (a, b) S) as (t & A1 & A2 & A3).
  assert (HR : forall j, (j < w)%nat -> nth_error (concat (frows X cell n 0 segs)) (i * w + j) = nth_error (row X cell n t (a, b)) j).
  { intros j' Hj'. apply (nth_concat _ w); auto. apply frows_width. }
  assert (HP : forall j, (j < w)%nat -> nth_error (concat (map (lin X cell n) segs)) (i * w + j) = nth_error (lin X cell n (a, b)) j).
  { intros j' Hj'. apply (nth_concat _ w); auto.
    - rewrite Forall_map. apply Forall_forall. intros s _. apply lin_length.
    - rewrite nth_error_map, S. reflexivity. }
  assert (D : 0 < IZR n + 1) by (apply IZR_le in Hn; lra).
  assert (RW : forall j, (j < w)%nat -> nth_error (row X cell n t (a, b)) j = Some (INR j / (IZR n + 1) * len X cell (a, b) + t)).
  { intros j' Hj'. unfold row. rewrite nth_error_map, nth_lin by exact Hj'. cbn [option_map]. f_equal. f_equal. unfold len.
    rewrite <- (Rabs_right (INR j' / (IZR n + 1))) at 2.
    - rewrite <- norm_scale. f_equal. cbn [fst snd]. generalize (Y X cell a) (Y X cell b) (INR j' / (IZR n + 1)). clear. vring.
    - apply Rle_ge. unfold Rdiv. apply Rmult_le_pos; [apply pos_INR|]. left. apply Rinv_0_lt_compat. lra. }
  rewrite HR, RW in Hx by lia. rewrite HR, RW in Hy by lia. rewrite HP, nth_lin in Hp by (unfold W, w in *; lia). rewrite HP, nth_lin in Hq by (unfold W, w in *; lia).
  rewrite S_INR in Hy, Hq.
  injection Hp as <-. injection Hq as <-. injection Hx as <-. injection Hy as <-.
  match goal with |- _ = norm ?v => replace v with (vscale (1 / (IZR n + 1)) (vsub (Y X cell b) (Y X cell a))) end.
  - rewrite norm_scale, Rabs_right by (apply Rle_ge; unfold Rdiv; rewrite Rmult_1_l; left; apply Rinv_0_lt_compat; lra).
    unfold len. cbn [fst snd]. field. lra.
  - cbn [fst snd]. generalize (Y X cell a) (Y X cell b) (INR j). intros u v r. set (m := IZR n + 1) in *. clearbody m. clear - D.
    destruct u, v. vunfold. vcomp; field; lra.
Qed.
Print Assumptions C21_flat_steps.

(* hs_table: one header line and one line per point, in the order of the names; it fails
   only without points. *)
Theorem C18_hs_table : forall header fmt pad k, reachable k ->
  (k_names k = [] -> hs_table header fmt pad k = Err ValueError) /\
  (k_names k <> [] -> exists rows, hs_table header fmt pad k = Ok (header :: rows) /\ length rows = length (k_names k)).
Proof.
  intros header fmt pad k R. pose proof (reachable_consistent k R) as (_ & C & _ & _). unfold hs_table.
  split; intros H; [rewrite H; reflexivity|].
  assert (G : forall names, incl names (keys (k_coords k)) ->
    exists rows, mapM (hs_row fmt pad k) names = Ok rows /\ length rows = length names).
  { induction names as [|s names IH]; intros I; [cbn; eauto|].
    destruct IH as (rows & E & L); [intros y Hy; apply I; cbn; auto|].
    destruct (proj2 (lookup_in s (k_coords k))) as [v Hv]; [apply I; cbn; auto|].
    cbn [mapM]. unfold hs_row at 1, getitem. rewrite Hv. cbn [bind]. cbv zeta. rewrite E. cbn [bind]. eexists. split; [reflexivity|].
    cbn [List.length]. congruence. }
  destruct (G (k_names k)) as (rows & E & L); [rewrite C; intros y; auto|]. exists rows. rewrite E. cbn [bind].
  split; auto. destruct (k_names k); [congruence|reflexivity].
Qed.
Print Assumptions C18_hs_table.
