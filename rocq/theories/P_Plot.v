(* P_Plot.v : property C51 (axis ranges). *)
From Verif Require Import Base M_Strings M_Dict T_Atoms M_Atoms M_Cell M_Voronoi M_Positions M_Spglib M_Kpoints M_Poscar M_Plot
  F_Strings F_Voronoi F_Lepage.
From Coq Require Import Permutation.
Open Scope string_scope.
Open Scope list_scope.
Open Scope R_scope.

(* ================= C51: ranges ================= *)
(* specification: p is in the box lo..hi; a box is the smallest one around given points *)
Definition inside (p lo hi : vec) : Prop :=
  vx lo <= vx p <= vx hi /\ vy lo <= vy p <= vy hi /\ vz lo <= vz p <= vz hi.
(* the points that have been drawn on a subplot *)
Definition drawn (e : engine) (place : Z * Z) (p : vec) : Prop :=
  exists t, In t (e_traces e) /\ t_at t = place /\ In p (t_points t).
Definition range_at (e : engine) (place : Z * Z) (lo hi : vec) : Prop := In (place, (lo, hi)) (e_ranges e).
(* every bound is the coordinate of a drawn point *)
Definition attained (P : vec -> Prop) (lo hi : vec) : Prop :=
  (exists p, P p /\ vx p = vx lo) /\ (exists p, P p /\ vy p = vy lo) /\ (exists p, P p /\ vz p = vz lo) /\
  (exists p, P p /\ vx p = vx hi) /\ (exists p, P p /\ vy p = vy hi) /\ (exists p, P p /\ vz p = vz hi).
Definition one_subpath_at_most (c : call) : Prop :=
  match c with PlotKpath _ kp _ _ _ => (length (k_path kp) <= 1)%nat | _ => True end.

Lemma same_place_iff p q : same_place p q = true <-> p = q.
Proof.
  unfold same_place. rewrite andb_true_iff, !Z.eqb_eq. destruct p, q; cbn. split; [intros []; congruence|intros H; injection H; auto].
Qed.
Lemma same_place_refl p : same_place p p = true. Proof. apply same_place_iff; auto. Qed.

(* ---- the table of ranges ---- *)
Definition wider (lo hi lo' hi' : vec) : Prop :=
  vx lo' <= vx lo /\ vy lo' <= vy lo /\ vz lo' <= vz lo /\ vx hi <= vx hi' /\ vy hi <= vy hi' /\ vz hi <= vz hi'.
Lemma wider_refl lo hi : wider lo hi lo hi. Proof. unfold wider; repeat split; lra. Qed.
Lemma wider_trans a b c d e f : wider a b c d -> wider c d e f -> wider a b e f.
Proof. unfold wider; intros; repeat split; lra. Qed.
Lemma inside_wider p lo hi lo' hi' : inside p lo hi -> wider lo hi lo' hi' -> inside p lo' hi'.
Proof. unfold inside, wider. intros; lra. Qed.
Lemma vmin_wider l h lo hi : wider l h (vmin l lo) (vmax h hi) /\ wider lo hi (vmin l lo) (vmax h hi).
Proof.
  unfold wider, vmin, vmax; cbn [vx vy vz]. repeat split; first [apply Rmin_l|apply Rmin_r|apply Rmax_l|apply Rmax_r].
Qed.
Lemma update_keys place lo hi rs : NoDup (map fst rs) -> NoDup (map fst (update_range place lo hi rs)).
Proof.
  assert (K : forall rs x, In x (map fst (update_range place lo hi rs)) -> x = place \/ In x (map fst rs)).
  { clear rs. induction rs as [|[p [l h]] rs IH]; intros x; cbn; [intuition congruence|]. destruct (same_place place p); cbn; [tauto|].
    intros [<-|H]; auto. apply IH in H. tauto. }
  induction rs as [|[p [l h]] rs IH]; intros N; cbn; [repeat constructor; auto|].
  destruct (same_place place p) eqn:E; [exact N|]. cbn in N |- *. inversion N as [|? ? N1 N2]. constructor; auto.
  intros Q. apply K in Q. destruct Q as [->|Q]; auto. rewrite same_place_refl in E. discriminate.
Qed.
Lemma update_new place lo hi rs : exists lo' hi', In (place, (lo', hi')) (update_range place lo hi rs) /\ wider lo hi lo' hi'.
Proof.
  induction rs as [|[p [l h]] rs IH]; cbn; [exists lo, hi; split; [auto|apply wider_refl]|].
  destruct (same_place place p) eqn:E.
  - apply same_place_iff in E. subst p. eexists _, _. split; [left; reflexivity|]. apply vmin_wider.
  - destruct IH as (a & b & H & W). exists a, b. split; [right|]; auto.
Qed.
Lemma update_old place lo hi rs q a b : In (q, (a, b)) rs ->
  exists a' b', In (q, (a', b')) (update_range place lo hi rs) /\ wider a b a' b'.
Proof.
  induction rs as [|[p [l h]] rs IH]; cbn; [tauto|]. intros [H|H].
  - injection H as -> -> ->. destruct (same_place place q).
    + eexists _, _. split; [left; reflexivity|]. apply vmin_wider.
    + exists a, b. split; [left; auto|apply wider_refl].
  - destruct (same_place place p).
    + exists a, b. split; [right; auto|apply wider_refl].
    + destruct (IH H) as (a' & b' & I & W). exists a', b'. split; [right|]; auto.
Qed.
(* where the entries of the updated table come from *)
Lemma update_origin place lo hi rs q a b : In (q, (a, b)) (update_range place lo hi rs) ->
  In (q, (a, b)) rs \/ (q = place /\ a = lo /\ b = hi) \/
  (q = place /\ exists l h, In (q, (l, h)) rs /\ a = vmin l lo /\ b = vmax h hi).
Proof.
  induction rs as [|[p [l h]] rs IH]; cbn; [intros [H|[]]; injection H as -> -> ->; auto|].
  destruct (same_place place p) eqn:E; cbn.
  - intros [H|H]; [|auto]. injection H as -> <- <-. apply same_place_iff in E. right; right. split; auto. exists l, h. auto.
  - intros [H|H]; [auto|]. destruct (IH H) as [K|[K|(K & l' & h' & I & J)]]; auto. right; right. split; auto. exists l', h'. auto.
Qed.
Lemma attained_mono (P Q : vec -> Prop) lo hi : (forall p, P p -> Q p) -> attained P lo hi -> attained Q lo hi.
Proof. intros H (A & B & C & D & E & F). repeat split; [destruct A as (p & ? & ?)|destruct B as (p & ? & ?)|destruct C as (p & ? & ?)|
  destruct D as (p & ? & ?)|destruct E as (p & ? & ?)|destruct F as (p & ? & ?)]; exists p; auto. Qed.
Lemma attained_join P l h lo hi : attained P l h -> attained P lo hi -> attained P (vmin l lo) (vmax h hi).
Proof.
  intros (A & B & C & D & E & F) (A' & B' & C' & D' & E' & F'). unfold vmin, vmax, attained; cbn [vx vy vz].
  repeat split.
  - unfold Rmin; destruct (Rle_dec (vx l) (vx lo)); auto.
  - unfold Rmin; destruct (Rle_dec (vy l) (vy lo)); auto.
  - unfold Rmin; destruct (Rle_dec (vz l) (vz lo)); auto.
  - unfold Rmax; destruct (Rle_dec (vx h) (vx hi)); auto.
  - unfold Rmax; destruct (Rle_dec (vy h) (vy hi)); auto.
  - unfold Rmax; destruct (Rle_dec (vz h) (vz hi)); auto.
Qed.

(* ---- programs ---- *)
(* every trace is followed by a report that covers it; every report has been earned by traces before it *)
Fixpoint reported (l : list action) : Prop :=
  match l with
  | [] => True
  | Add t :: l' => (forall p, In p (t_points t) -> exists lo hi, In (Update (t_at t) lo hi) l' /\ inside p lo hi) /\ reported l'
  | Update _ _ _ :: l' => reported l'
  end.
Definition on (ts : list trace) (place : Z * Z) (p : vec) : Prop := exists t, In t ts /\ t_at t = place /\ In p (t_points t).
Fixpoint earned (ts : list trace) (l : list action) : Prop :=
  match l with
  | [] => True
  | Add t :: l' => earned (ts ++ [t]) l'
  | Update place lo hi :: l' => attained (on ts place) lo hi /\ earned ts l'
  end.
Lemma reported_app a b : reported a -> reported b -> reported (a ++ b).
Proof.
  induction a as [|[t|p lo hi] a IH]; cbn; auto. intros (H & A) B. split; auto. intros q Q.
  destruct (H q Q) as (l & h & I & J). exists l, h. split; auto. apply in_or_app; auto.
Qed.
Definition added (l : list action) : list trace := flat_map (fun a => match a with Add t => [t] | _ => [] end) l.
Lemma earned_app a : forall ts b, earned ts a -> earned (ts ++ added a) b -> earned ts (a ++ b).
Proof.
  induction a as [|[t|p lo hi] a IH]; intros ts b; cbn [earned added flat_map app].
  - rewrite app_nil_r. auto.
  - intros H B. apply IH; auto. rewrite <- app_assoc. exact B.
  - intros (H & A) B. split; auto.
Qed.
Lemma on_mono ts ts' place p : (forall t, In t ts -> In t ts') -> on ts place p -> on ts' place p.
Proof. intros H (t & A & B & C). exists t. auto. Qed.
Lemma earned_mono l : forall ts ts', (forall t, In t ts -> In t ts') -> earned ts l -> earned ts' l.
Proof.
  induction l as [|[t|p lo hi] l IH]; intros ts ts' H; cbn; auto.
  - apply IH. intros x X. apply in_app_iff in X. apply in_app_iff. cbn in *. intuition auto.
  - intros (A & B). split; [|eapply IH; eauto]. eapply attained_mono; [|exact A]. intros q. apply on_mono; auto.
Qed.
(* both, for the program of a method *)
Definition good (l : list action) : Prop := reported l /\ earned [] l.
Lemma good_app a b : good a -> good b -> good (a ++ b).
Proof.
  intros (A & A') (B & B'). split; [apply reported_app; auto|]. apply earned_app; auto. eapply earned_mono; [|exact B']. intros t [].
Qed.
Lemma good_nil : good []. Proof. split; exact I. Qed.
Lemma good_and_then p q : good (fst p) -> good (fst q) -> good (fst (and_then p q)).
Proof. destruct p as [a [e|]]; cbn; auto. intros; apply good_app; auto. Qed.
Lemma good_all l : Forall (fun p => good (fst p)) l -> good (fst (all_of l)).
Proof. induction 1 as [|p l H _ IH]; cbn [all_of]; [apply good_nil|apply good_and_then; auto]. Qed.
Lemma good_with {A} (r : res A) k : (forall a, r = Ok a -> good (fst (k a))) -> good (fst (with_res r k)).
Proof. destruct r; cbn; auto using good_nil. Qed.

Lemma box_inside l : forall p, (forall q, In q (p :: l) -> inside q (fold_left vmin l p) (fold_left vmax l p)).
Proof.
  assert (M : forall l a b, wider a b (fold_left vmin l a) (fold_left vmax l b)).
  { clear l. induction l as [|x l IH]; intros a b; cbn; [apply wider_refl|]. eapply wider_trans; [|apply IH]. apply vmin_wider. }
  assert (K : forall l a b q, In q l -> inside q (fold_left vmin l a) (fold_left vmax l b)).
  { clear l. induction l as [|x l IH]; intros a b q; cbn; [tauto|]. intros [<-|H]; [|apply IH; auto].
    eapply inside_wider; [|apply M]. unfold inside, vmin, vmax; cbn [vx vy vz]. repeat split; first [apply Rmin_r|apply Rmax_r]. }
  intros p q [<-|H]; [|apply K; auto]. eapply inside_wider; [|apply M]. unfold inside; repeat split; lra.
Qed.
Lemma attained_self (P : vec -> Prop) p : P p -> attained P p p.
Proof. intros H. repeat split; exists p; auto. Qed.
Lemma box_attained (P : vec -> Prop) l p : P p -> (forall q, In q l -> P q) -> attained P (fold_left vmin l p) (fold_left vmax l p).
Proof.
  intros H K. assert (G : forall l a b, attained P a b -> (forall q, In q l -> P q) -> attained P (fold_left vmin l a) (fold_left vmax l b)).
  { clear. induction l as [|x l IH]; intros a b A B; cbn; auto. apply IH; [apply attained_join; auto; apply attained_self; apply B; cbn; auto|].
    intros q Q. apply B. cbn; auto. }
  apply G; auto. apply attained_self; auto.
Qed.
Lemma good_points place points m cs txt label :
  good (fst (report place points (fun lo hi => act [Add (Trace place m points cs txt label); Update place lo hi]))).
Proof.
  destruct points as [|p l]; cbn [report fst act]; [apply good_nil|]. split; cbn.
  - split; auto. intros q Q. eexists _, _. split; [left; reflexivity|]. apply box_inside. auto.
  - split; auto. apply box_attained; [|intros q Q]; (eexists; split; [left; reflexivity|]); cbn; auto.
Qed.
Lemma line_inside p q : inside p (vmin p q) (vmax p q) /\ inside q (vmin p q) (vmax p q).
Proof. unfold inside, vmin, vmax; cbn [vx vy vz]. repeat split; first [apply Rmin_l|apply Rmin_r|apply Rmax_l|apply Rmax_r]. Qed.
Lemma good_line place p q c l : good (fst (plot_line place p q c l)).
Proof.
  destruct (line_inside p q) as (Ip & Iq). split; cbn.
  - split; auto. intros x [<-|[<-|[]]]; eexists _, _; (split; [left; reflexivity|]); auto.
  - split; auto. apply attained_join; apply attained_self; (eexists; split; [left; reflexivity|]); cbn; auto.
Qed.
Lemma good_vector place p q c vl l : good (fst (plot_vector place p q c vl l)).
Proof.
  destruct (line_inside p q) as (Ip & Iq).
  assert (A : forall ts t, t_at t = place -> t_points t = [p; q] -> In t ts -> attained (on ts place) (vmin p q) (vmax p q)).
  { intros ts t T P H. apply attained_join; apply attained_self; exists t; (split; [auto|]; split; [auto|]); rewrite P; cbn; auto. }
  assert (S : forall x : vec, inside x x x) by (intros; unfold inside; repeat split; lra).
  unfold plot_vector. destruct vl as [text|]; split; cbn.
  - split; [|split; [|split; auto]].
    + intros x [<-|[<-|[]]]; eexists _, _; (split; [right; right; right; left; reflexivity|]); auto.
    + intros x [<-|[]]; eexists _, _; (split; [right; right; left; reflexivity|]); auto.
    + intros x [<-|[]]; eexists _, _; (split; [left; reflexivity|]); auto.
  - split; [|split; auto].
    + apply attained_self. eexists. split; [right; right; left; reflexivity|]. cbn; auto.
    + eapply A; [| |left; reflexivity]; reflexivity.
  - split; [|split; auto].
    + intros x [<-|[<-|[]]]; eexists _, _; (split; [right; left; reflexivity|]); auto.
    + intros x [<-|[]]; eexists _, _; (split; [left; reflexivity|]); auto.
  - split; auto. eapply A; [| |left; reflexivity]; reflexivity.
Qed.
Lemma good_vectors place cell s vl c : good (fst (plot_vectors place cell s vl c)).
Proof. apply good_all. cbn [map combine rows_of]. repeat (apply Forall_cons; [apply good_vector|]). apply Forall_nil. Qed.
Lemma good_edges place vs s c : forall es l, good (fst (edge_lines place vs es s c l)).
Proof.
  induction es as [|[i j] es IH]; intros l; cbn [edge_lines]; [apply good_nil|]. apply good_and_then; [|apply IH].
  apply good_with; intros p _. apply good_with; intros q _. apply good_line.
Qed.
Lemma good_ws V place m v vl c s l : good (fst (plot_wigner_seitz_cell V place m v vl c s l)).
Proof.
  unfold plot_wigner_seitz_cell. apply good_and_then; [destruct v; [apply good_vectors|apply good_nil]|].
  apply good_with. intros ve _. apply good_edges.
Qed.
Lemma good_call c : one_subpath_at_most c -> good (fst (program_of c)).
Proof.
  destruct c; cbn [program_of one_subpath_at_most]; intros O.
  - apply good_points.
  - apply good_line.
  - apply good_vector.
  - unfold plot_cell. apply good_and_then; [destruct vectors; [apply good_vectors|apply good_nil]|].
    apply good_all. repeat (apply Forall_cons; [apply good_all; repeat (apply Forall_cons; [apply good_line|]); apply Forall_nil|]). apply Forall_nil.
  - apply good_ws.
  - unfold plot_brillouin_zone. apply good_with. intros r _. apply good_ws.
  - unfold plot_kpath. destruct (k_path kp) as [|s [|s' rest]]; cbn [kpath_lines]; [apply good_nil| |cbn in O; lia].
    apply good_with. intros ps _. destruct ps as [|p ps]; [apply good_nil|]. cbn [kpath_lines].
    apply (good_points at_ (p :: ps)).
  - unfold plot_kpoints. cbv zeta. apply good_with. intros ps _. apply good_points.
  - unfold plot_lattice. apply good_with. intros ps _. apply good_points.
  - unfold plot_atoms. apply good_with. intros v _. apply good_with. intros ps _. destruct (Nat.eqb (length ps) 0); [apply good_nil|]. cbv zeta.
    apply good_with. intros cs _. apply good_with. intros _ _. apply good_with. intros _ _. apply good_points.
Qed.

(* ---- running ---- *)
Definition covered (e : engine) : Prop :=
  forall place p, drawn e place p -> exists lo hi, range_at e place lo hi /\ inside p lo hi.
Definition tight (e : engine) : Prop := forall place lo hi, range_at e place lo hi -> attained (drawn e place) lo hi.
Lemma perform_keeps l : forall e place lo hi, range_at e place lo hi ->
  exists lo' hi', range_at (fold_left perform l e) place lo' hi' /\ wider lo hi lo' hi'.
Proof.
  induction l as [|[t|q a b] l IH]; intros e place lo hi H; cbn [fold_left]; [exists lo, hi; split; [auto|apply wider_refl]| |].
  - apply IH. exact H.
  - destruct (update_old q a b _ _ _ _ H) as (a' & b' & I & W).
    destruct (IH (perform e (Update q a b)) place a' b' I) as (x & y & J & K). exists x, y. split; auto. eapply wider_trans; eauto.
Qed.
Lemma performed l : forall e place lo hi, In (Update place lo hi) l ->
  exists lo' hi', range_at (fold_left perform l e) place lo' hi' /\ wider lo hi lo' hi'.
Proof.
  induction l as [|a l IH]; intros e place lo hi; cbn [In fold_left]; [tauto|]. intros [->|H]; [|apply IH; auto].
  destruct (update_new place lo hi (e_ranges e)) as (x & y & I & W).
  destruct (perform_keeps l (perform e (Update place lo hi)) place x y I) as (x' & y' & J & K). exists x', y'. split; auto. eapply wider_trans; eauto.
Qed.
Lemma traces_added l : forall e, e_traces (fold_left perform l e) = e_traces e ++ added l.
Proof.
  induction l as [|[t|q a b] l IH]; intros e; cbn [fold_left added flat_map]; [rewrite app_nil_r; auto| |].
  - rewrite IH. cbn. rewrite <- app_assoc. reflexivity.
  - rewrite IH. reflexivity.
Qed.
Lemma run_covered l e : covered e -> reported l -> covered (fold_left perform l e).
Proof.
  intros C H place p (t & T & A & P). rewrite traces_added in T. apply in_app_iff in T. destruct T as [T|T].
  - destruct (C place p) as (lo & hi & I & J); [exists t; auto|]. destruct (perform_keeps l e place lo hi I) as (lo' & hi' & K & W).
    exists lo', hi'. split; auto. eapply inside_wider; eauto.
  - assert (U : exists lo hi, In (Update place lo hi) l /\ inside p lo hi).
    { subst place. clear C. revert H T. induction l as [|[t'|q a b] l IH]; cbn [reported added flat_map app]; intros H T; [destruct T| |].
      - destruct H as (H & R). destruct T as [->|T]; [destruct (H p P) as (lo & hi & I & J)|destruct (IH R T) as (lo & hi & I & J)];
          exists lo, hi; cbn; auto.
      - destruct (IH H T) as (lo & hi & I & J). exists lo, hi. cbn; auto. }
    destruct U as (lo & hi & I & J). destruct (performed l e place lo hi I) as (lo' & hi' & K & W). exists lo', hi'. split; auto.
    eapply inside_wider; eauto.
Qed.
Lemma run_tight l : forall e, tight e -> earned (e_traces e) l -> tight (fold_left perform l e).
Proof.
  induction l as [|[t|q a b] l IH]; intros e T H; cbn [fold_left earned] in *; auto.
  - apply IH; [|exact H]. intros place lo hi R. eapply attained_mono; [|apply T; exact R].
    intros p (t' & A & B). exists t'. cbn. rewrite in_app_iff. auto.
  - destruct H as (A & H). apply IH; [|exact H]. intros place lo hi R. unfold range_at in R. cbn in R.
    apply update_origin in R. destruct R as [R|[(-> & -> & ->)|(-> & l' & h' & R & -> & ->)]].
    + apply (T _ _ _ R).
    + exact A.
    + apply attained_join; [apply (T _ _ _ R)|exact A].
Qed.
Lemma run_keys l : forall e, NoDup (map fst (e_ranges e)) -> NoDup (map fst (e_ranges (fold_left perform l e))).
Proof. induction l as [|[t|q a b] l IH]; intros e N; cbn [fold_left]; auto. apply IH. cbn. apply update_keys; auto. Qed.

(* After any history of calls - including calls that ended with an exception - the recorded box of
   a subplot is the bounding box of everything drawn on it, if no k-path had several sub-paths. *)
Theorem C51_bounding_box : forall calls, Forall one_subpath_at_most calls ->
  let e := run_calls new_engine calls in
  NoDup (map fst (e_ranges e)) /\
  (forall place p, drawn e place p -> exists lo hi, range_at e place lo hi) /\
  (forall place lo hi, range_at e place lo hi -> (forall p, drawn e place p -> inside p lo hi) /\ attained (drawn e place) lo hi).
Proof.
  intros calls O e.
  assert (K : NoDup (map fst (e_ranges e)) /\ covered e /\ tight e).
  { unfold e, run_calls. assert (N0 : NoDup (map fst (e_ranges new_engine)) /\ covered new_engine /\ tight new_engine).
    { split; [constructor|]. split; [intros place p (t & [] & _)|intros place lo hi []]. }
    clear e. revert N0. generalize new_engine. induction O as [|c calls Hc _ IH]; intros e N0; cbn [fold_left]; auto.
    apply IH. destruct N0 as (N & C & T). pose proof (good_call c Hc) as (R & E). unfold run_call. destruct (program_of c) as [l x]. cbn [fst] in *.
    split; [apply run_keys; auto|]. split; [apply run_covered; auto|]. apply run_tight; auto. eapply earned_mono; [|exact E]. intros t []. }
  destruct K as (N & C & T). split; auto. split.
  - intros place p D. destruct (C place p D) as (lo & hi & I & _). eauto.
  - intros place lo hi R. split; [|apply T; auto]. intros p D. destruct (C place p D) as (lo' & hi' & I & J).
    assert (X : (lo, hi) = (lo', hi')).
    { revert N R I. unfold range_at. clear. generalize (e_ranges e) as rs. induction rs as [|[q b] rs IH]; cbn; [tauto|].
      intros N. inversion N as [|? ? N1 N2]. intros [A|A] [B|B]; [congruence| | |auto]; exfalso; apply N1.
      - injection A as -> ->. apply (in_map fst) in B. exact B.
      - injection B as -> ->. apply (in_map fst) in A. exact A. }
    injection X as -> ->. auto.
Qed.
Print Assumptions C51_bounding_box.
(* No call, successful or not, ever shrinks a recorded box. *)
Theorem C51_monotone : forall e c place lo hi, range_at e place lo hi ->
  exists lo' hi', range_at (fst (run_call e c)) place lo' hi' /\ wider lo hi lo' hi'.
Proof. intros e c place lo hi H. unfold run_call. destruct (program_of c) as [l x]. apply perform_keeps. auto. Qed.
Print Assumptions C51_monotone.
(* every bound is non-trivial: two points on one subplot, one on another, and a failing call *)
Example C51_case : let e := run_calls new_engine
    [PlotPoints (1, 1)%Z [V3 1 5 (-1); V3 2 3 4] ["red"] None; PlotPoints (1, 1)%Z [] ["red"] None;
     PlotLine (1, 2)%Z (V3 0 0 0) (V3 1 1 1) "red" None; PlotLine (1, 1)%Z (V3 0 4 0) (V3 1 1 1) "red" None] in
  length (e_ranges e) = 2%nat /\ drawn e (1, 1)%Z (V3 2 3 4) /\ drawn e (1, 2)%Z (V3 1 1 1).
Proof.
  cbn. split; [reflexivity|]. split; eexists; (split; [|split; [|]]); [left; reflexivity|reflexivity|cbn; auto|right; left; reflexivity|reflexivity|cbn; auto].
Qed.

(* a k-path of two sub-paths: the range ignores all but the last one *)
Theorem C51_kpath_refuted : exists kp e p lo hi,
  init mid [V3 0 0 0; V3 5 0 0; V3 0 1 0; V3 0 0 1] (Some ["A"; "B"; "C"; "D"]) None
     (Some (PathList [SubList ["A"; "B"]; SubList ["C"; "D"]])) 100 = Ok kp /\
  run_call new_engine (PlotKpath (1, 1)%Z kp "black" (V3 0 0 0) None) = (e, None) /\
  drawn e (1, 1)%Z p /\ range_at e (1, 1)%Z lo hi /\ ~ inside p lo hi.
Proof.
  eexists _, _, (V3 (0 + (5 * 1 + 0 * 0 + 0 * 0)) (0 + (5 * 0 + 0 * 1 + 0 * 0)) (0 + (5 * 0 + 0 * 0 + 0 * 1))), _, _.
  split; [reflexivity|]. split; [reflexivity|]. split.
  { eexists. split; [left; reflexivity|]. split; [reflexivity|]. right; left. reflexivity. }
  split; [left; reflexivity|]. unfold inside. cbn [vx vy vz vmin vmax fold_left]. intros ((_ & H) & _). revert H.
  unfold vadd, vmat, mid, vmin, vmax. cbn. unfold dot, col1. cbn. unfold Rmax. repeat destruct Rle_dec; lra.
Qed.
Print Assumptions C51_kpath_refuted.
(* a k-path without sub-paths cannot be drawn at all *)
Theorem C51_kpath_empty_refuted : exists kp,
  init mid [V3 0 0 0] (Some ["A"]) None (Some (PathList [])) 100 = Ok kp /\
  run_call new_engine (PlotKpath (1, 1)%Z kp "black" (V3 0 0 0) None) = (new_engine, Some UnboundLocalError).
Proof. eexists. split; reflexivity. Qed.
Print Assumptions C51_kpath_empty_refuted.

(* ---- show / save ---- *)
Lemma mapM_in_ok {A B} (f : A -> res B) l r : mapM f l = Ok r -> forall x, In x l -> exists y, In y r /\ f x = Ok y.
Proof.
  revert r. induction l as [|a l IH]; cbn; intros r H x; [tauto|]. destruct (f a) as [b|] eqn:E; [|discriminate]. cbn in H.
  destruct (mapM f l) as [bs|]; [|discriminate]. injection H as <-. intros [->|X]; [exists b; cbn; auto|].
  destruct (IH bs eq_refl x X) as (y & Y & Z). exists y. cbn; auto.
Qed.
Theorem C51_shown : forall calls position scenes, Forall one_subpath_at_most calls ->
  let e := run_calls new_engine calls in
  show e position = Ok scenes ->
  forall place p, drawn e place p ->
  exists lo hi s, range_at e place lo hi /\ In s scenes /\ s_at s = place /\
    (* the scale is the same along the three axes *)
    vx (s_aspect s) * (vz (s_hi s) - vz (s_lo s)) = vz (s_aspect s) * (vx (s_hi s) - vx (s_lo s)) /\
    vy (s_aspect s) * (vz (s_hi s) - vz (s_lo s)) = vz (s_aspect s) * (vy (s_hi s) - vy (s_lo s)) /\
    (* and the axes contain the drawing, if the box does contain the origin *)
    (inside (V3 0 0 0) lo hi -> inside p (s_lo s) (s_hi s)).
Proof.
  intros calls position scenes O e H place p D. destruct (C51_bounding_box calls O) as (_ & K1 & K2). fold e in K1, K2.
  destruct (K1 place p D) as (lo & hi & R). destruct (K2 place lo hi R) as (I & A). specialize (I p D).
  unfold show in H. destruct (mem (lower position) LEGEND_POSITIONS); [|discriminate].
  destruct (mapM_in_ok _ _ _ H _ R) as (s & S & E). unfold scene_of in E. cbv zeta in E.
  destruct (Reqb_spec (vz (vsub (vscale (105 / 100) hi) (vscale (105 / 100) lo))) 0) as [|Z]; [discriminate|]. injection E as <-.
  exists lo, hi. eexists. split; [exact R|]. split; [exact S|]. cbn [s_at s_lo s_hi s_aspect vx vy vz]. split; [reflexivity|].
  unfold vsub, vscale in *; cbn [vx vy vz] in *. unfold inside in *; cbn [vx vy vz] in *.
  assert (X : 0 < 105 / 100 * vz hi - 105 / 100 * vz lo) by lra.
  assert (P : forall d, 0 <= d -> Rabs (d / (105 / 100 * vz hi - 105 / 100 * vz lo)) * (105 / 100 * vz hi - 105 / 100 * vz lo) = 1 * d).
  { intros d Hd. rewrite Rabs_pos_eq; [field; lra|]. apply Rmult_le_pos; auto. left. apply Rinv_0_lt_compat; auto. }
  split; [apply P; lra|]. split; [apply P; lra|]. intros; lra.
Qed.
Print Assumptions C51_shown.
(* ... but when the box is to one side of the origin a drawn point is cut off *)
Theorem C51_shown_refuted : exists calls scenes p s, Forall one_subpath_at_most calls /\
  let e := run_calls new_engine calls in
  show e "top" = Ok scenes /\ drawn e (1, 1)%Z p /\ In s scenes /\ s_at s = (1, 1)%Z /\
  (forall s', In s' scenes -> s' = s) /\ ~ inside p (s_lo s) (s_hi s).
Proof.
  exists [PlotPoints (1, 1)%Z [V3 1 1 1; V3 2 2 2] ["black"] None].
  assert (L : forall a b, a <= b -> Rmin a b = a /\ Rmax a b = b) by (intros; split; [apply Rmin_left|apply Rmax_right]; auto).
  destruct (L 1 2 ltac:(lra)) as (L1 & L2).
  exists [Scene (1, 1)%Z (vscale (105 / 100) (V3 1 1 1)) (vscale (105 / 100) (V3 2 2 2)) (V3 1 1 1)], (V3 1 1 1).
  eexists. split; [repeat constructor|]. cbv zeta. split.
  { unfold show. change (mem (lower "top") LEGEND_POSITIONS) with true. cbn. unfold vmin, vmax. cbn [vx vy vz]. rewrite L1, L2. destruct (Reqb_spec (105 / 100 * 2 - 105 / 100 * 1) 0); [lra|].
    cbn [bind]. do 2 f_equal. f_equal. f_equal; replace ((105 / 100 * 2 - 105 / 100 * 1) / (105 / 100 * 2 - 105 / 100 * 1)) with 1 by (field; lra); apply Rabs_R1. }
  split; [eexists; split; [left; reflexivity|split; [reflexivity|left; reflexivity]]|].
  split; [left; reflexivity|]. split; [reflexivity|]. split; [intros s' [<-|[]]; reflexivity|].
  unfold inside. cbn. lra.
Qed.
Print Assumptions C51_shown_refuted.
(* A flat picture (everything at one height) has no aspect ratio: numpy divides by zero. *)
Theorem C51_flat_refuted : forall p q color, vz p = vz q ->
  show (run_calls new_engine [PlotLine (1, 1)%Z p q color None]) "top" = Err NotANumber.
Proof.
  intros p q color H. unfold show. change (mem (lower "top") LEGEND_POSITIONS) with true. cbn. destruct (Reqb_spec (105 / 100 * Rmax (vz p) (vz q) - 105 / 100 * Rmin (vz p) (vz q)) 0) as [|N]; [reflexivity|].
  exfalso. apply N. rewrite H, Rmax_left, Rmin_left by lra. ring.
Qed.
Print Assumptions C51_flat_refuted.
Theorem C51_legend_position : forall e position,
  (~ In (lower position) ["top"; "bottom"; "left"; "right"] -> show e position = Err ValueError) /\
  (In (lower position) ["top"; "bottom"; "left"; "right"] ->
     (forall place lo hi, range_at e place lo hi -> vz lo <> vz hi) -> exists scenes, show e position = Ok scenes).
Proof.
  intros e position. unfold show. change LEGEND_POSITIONS with ["top"; "bottom"; "left"; "right"]. split; intros H.
  - destruct (mem _ _) eqn:M; [|reflexivity]. apply mem_true in M. contradiction.
  - intros Z. apply mem_true in H. rewrite H. unfold range_at in Z. revert Z. generalize (e_ranges e). clear.
    induction l as [|[place [lo hi]] l IH]; intros Z; cbn [mapM]; [eauto|].
    unfold scene_of at 1. cbv zeta. specialize (Z place lo hi (or_introl eq_refl)) as Z0.
    destruct (Reqb_spec (vz (vsub (vscale (105 / 100) hi) (vscale (105 / 100) lo))) 0) as [N|N].
    { unfold vsub, vscale in N; cbn [vz] in N. exfalso. apply Z0. lra. }
    cbn [bind]. destruct IH as (ss & ->); [intros; eapply Z; right; eauto|]. cbn [bind]. eauto.
Qed.
Print Assumptions C51_legend_position.
