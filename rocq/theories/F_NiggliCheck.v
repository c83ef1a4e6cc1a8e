(* F_NiggliCheck.v : a checker of refutations of linear conditions on six numbers (sums of the
   conditions with non-negative weights, case splits on the conditional ones), and its soundness.
   Used for the uniqueness of the reduced cell; the refutations are in F_NiggliCerts.v. *)
From Verif Require Import Base M_Niggli S_Niggli F_Niggli F_Minima.
Open Scope R_scope.

(* ---------------- linear forms ---------------- *)
Definition lin := list Z.
Fixpoint ev (l : lin) (xs : list R) : R :=
  match l, xs with
  | a :: l', x :: xs' => IZR a * x + ev l' xs'
  | _, _ => 0
  end.
Fixpoint ladd (a b : lin) : lin :=
  match a, b with
  | [], _ => b
  | _, [] => a
  | x :: a', y :: b' => (x + y)%Z :: ladd a' b'
  end.
Definition lscale (k : Z) (a : lin) : lin := map (Z.mul k) a.
Lemma ev_add a : forall b xs, ev (ladd a b) xs = ev a xs + ev b xs.
Proof.
  induction a as [|x a IH]; intros [|y b] [|r xs]; cbn [ladd ev]; try lra.
  rewrite IH, plus_IZR. lra.
Qed.
Lemma ev_scale k a : forall xs, ev (lscale k a) xs = IZR k * ev a xs.
Proof.
  induction a as [|x a IH]; intros [|r xs]; cbn [lscale map ev]; try lra.
  unfold lscale in IH. rewrite IH, mult_IZR. lra.
Qed.
Lemma ev_zero a : forallb (Z.eqb 0) a = true -> forall xs, ev a xs = 0.
Proof.
  induction a as [|x a IH]; intros H [|r xs]; cbn [ev]; auto.
  cbn [forallb] in H. apply andb_true_iff in H. destruct H as [H1 H2].
  apply Z.eqb_eq in H1. subst x. rewrite IH; auto. lra.
Qed.

(* ---------------- conditions: a form that is positive or non-negative ---------------- *)
Definition cond := (bool * lin)%type.
Definition holds (xs : list R) (c : cond) : Prop :=
  if fst c then 0 < ev (snd c) xs else 0 <= ev (snd c) xs.
(* conditional ones: if the first form is not positive, the second is not negative *)
Definition cimp := (lin * lin)%type.
Definition iholds (xs : list R) (c : cimp) : Prop := ev (fst c) xs <= 0 -> 0 <= ev (snd c) xs.

Inductive tree := Lf (c : list (nat * Z)) | Nd (k : nat) (t1 t2 : tree).

Fixpoint comb (cs : list cond) (c : list (nat * Z)) : option cond :=
  match c with
  | [] => Some (false, [])
  | (i, k) :: c' =>
      match nth_error cs i, comb cs c' with
      | Some (s, v), Some (s', v') =>
          if Z.ltb 0 k then Some (s || s', ladd (lscale k v) v') else None
      | _, _ => None
      end
  end.
Fixpoint check (cs : list cond) (is : list cimp) (t : tree) : bool :=
  match t with
  | Lf c => match comb cs c with Some (true, v) => forallb (Z.eqb 0) v | _ => false end
  | Nd k t1 t2 =>
      match nth_error is k with
      | Some (e, c) =>
          check (cs ++ [(true, e)]) is t1 && check (cs ++ [(false, lscale (-1) e); (false, c)]) is t2
      | None => false
      end
  end.

Lemma comb_sound xs cs c : Forall (holds xs) cs -> forall r, comb cs c = Some r -> holds xs r.
Proof.
  intros H. induction c as [|[i k] c IH]; cbn [comb]; intros r E.
  - injection E as <-. cbn. lra.
  - destruct (nth_error cs i) as [[s v]|] eqn:N; [|discriminate].
    destruct (comb cs c) as [[s' v']|]; [|discriminate].
    destruct (Z.ltb_spec 0 k) as [K|K]; [|discriminate]. injection E as <-.
    apply nth_error_In in N. rewrite Forall_forall in H. apply H in N.
    specialize (IH _ eq_refl). unfold holds in *. cbn [fst snd] in *.
    rewrite ev_add, ev_scale. apply IZR_lt in K.
    destruct s, s'; cbn [orb]; nra.
Qed.
Lemma check_sound xs t : forall cs is, Forall (holds xs) cs -> Forall (iholds xs) is ->
  check cs is t = true -> False.
Proof.
  induction t as [c|k t1 IH1 t2 IH2]; cbn [check]; intros cs is H I E.
  - destruct (comb cs c) as [[[|] v]|] eqn:C; try discriminate.
    apply (comb_sound xs) in C; auto. unfold holds in C. cbn [fst snd] in C.
    rewrite (ev_zero v E) in C. lra.
  - destruct (nth_error is k) as [[e c]|] eqn:N; [|discriminate].
    apply andb_true_iff in E. destruct E as [E1 E2].
    assert (Ie : iholds xs (e, c)). { rewrite Forall_forall in I. apply I. eapply nth_error_In; eauto. }
    unfold iholds in Ie. cbn [fst snd] in Ie.
    destruct (Rlt_le_dec 0 (ev e xs)) as [D|D].
    + eapply IH1; [|exact I|exact E1]. apply Forall_app; split; [exact H|repeat constructor; exact D].
    + eapply IH2; [|exact I|exact E2]. apply Forall_app; split; [exact H|].
      apply Forall_cons; [|apply Forall_cons; [|apply Forall_nil]]; unfold holds; cbn [fst snd];
        [rewrite ev_scale; lra|auto].
Qed.

(* ---------------- the conditions of the definition of a reduced set ---------------- *)
Definition plist (p : npar) : list R := [nA p; nB p; nC p; nxi p; neta p; nzeta p].
Definition of_type (ty : bool) (p : npar) : Prop :=
  if ty then 0 < nxi p /\ 0 < neta p /\ 0 < nzeta p else nxi p <= 0 /\ neta p <= 0 /\ nzeta p <= 0.
(* order of the six: A B C xi eta zeta *)
Definition conds (ty : bool) : list cond :=
  (if ty then
  [(true, [1;0;0;0;0;0]); (false, [-1;1;0;0;0;0]); (false, [0;-1;1;0;0;0]);
   (true, [0;0;0;1;0;0]); (true, [0;0;0;0;1;0]); (true, [0;0;0;0;0;1]);
   (false, [0;1;0;-1;0;0]); (false, [1;0;0;0;-1;0]); (false, [1;0;0;0;0;-1]); (false, [1;1;0;1;1;1])]
  else
  [(true, [1;0;0;0;0;0]); (false, [-1;1;0;0;0;0]); (false, [0;-1;1;0;0;0]);
   (false, [0;0;0;-1;0;0]); (false, [0;0;0;0;-1;0]); (false, [0;0;0;0;0;-1]);
   (false, [0;1;0;1;0;0]); (false, [1;0;0;0;1;0]); (false, [1;0;0;0;0;1]); (false, [1;1;0;1;1;1])])%Z.
Definition imps (ty : bool) : list cimp :=
  (if ty then
  [([-1;1;0;0;0;0], [0;0;0;-1;1;0]); ([0;-1;1;0;0;0], [0;0;0;0;-1;1]);
   ([0;1;0;-1;0;0], [0;0;0;0;2;-1]); ([1;0;0;0;-1;0], [0;0;0;2;0;-1]); ([1;0;0;0;0;-1], [0;0;0;2;-1;0])]
  else
  [([-1;1;0;0;0;0], [0;0;0;1;-1;0]); ([0;-1;1;0;0;0], [0;0;0;0;1;-1]);
   ([0;1;0;1;0;0], [0;0;0;0;0;1]); ([1;0;0;0;1;0], [0;0;0;0;0;1]); ([1;0;0;0;0;1], [0;0;0;0;1;0]);
   ([1;1;0;1;1;1], [-2;0;0;0;-2;-1])])%Z.
Lemma reduced_conds ty p : reduced 0 p -> 0 < nA p -> of_type ty p ->
  Forall (holds (plist p)) (conds ty) /\ Forall (iholds (plist p)) (imps ty).
Proof.
  intros [R1 R2 R3 R4 R5 R6 R7 R8 R9 R10 R11 R12 R13 R14 R15 R16] P T. clear R5.
  apply abs_le in R6. apply abs_le in R7. apply abs_le in R8.
  assert (N : forall x y, x = y -> near 0 x y) by apply near0.
  destruct ty; cbn [of_type] in T; destruct T as (T1 & T2 & T3).
  - rewrite !Rabs_pos_eq in R3, R4 by lra.
    split; cbn [conds imps]; repeat apply Forall_cons; try apply Forall_nil;
      unfold holds, iholds, plist; cbn [fst snd ev]; try lra; intros H.
    + specialize (R3 ltac:(apply N; lra)). lra.
    + specialize (R4 ltac:(apply N; lra)). lra.
    + specialize (R9 ltac:(apply N; lra)). lra.
    + specialize (R10 ltac:(apply N; lra)). lra.
    + specialize (R11 ltac:(apply N; lra)). lra.
  - rewrite !Rabs_left1 in R3, R4 by lra.
    split; cbn [conds imps]; repeat apply Forall_cons; try apply Forall_nil;
      unfold holds, iholds, plist; cbn [fst snd ev]; try lra; intros H.
    + specialize (R3 ltac:(apply N; lra)). lra.
    + specialize (R4 ltac:(apply N; lra)). lra.
    + specialize (R12 ltac:(apply N; lra)). lra.
    + specialize (R13 ltac:(apply N; lra)). lra.
    + specialize (R14 ltac:(apply N; lra)). lra.
    + specialize (R16 ltac:(apply N; lra)). lra.
Qed.

(* ---------------- change of cell ---------------- *)
Definition quad (v w : Z * Z * Z) : lin := let '(x, y, z) := v in let '(a, b, c) := w in
  [x * a; y * b; z * c; y * c; x * c; x * b]%Z.
Definition quad2 (v w : Z * Z * Z) : lin := let '(x, y, z) := v in let '(a, b, c) := w in
  [2 * x * a; 2 * y * b; 2 * z * c; y * c + z * b; x * c + z * a; x * b + y * a]%Z.
Definition r1 (t : zmat) := (z11 t, z12 t, z13 t).
Definition r2 (t : zmat) := (z21 t, z22 t, z23 t).
Definition r3 (t : zmat) := (z31 t, z32 t, z33 t).
Definition moved (t : zmat) : list lin :=
  [quad (r1 t) (r1 t); quad (r2 t) (r2 t); quad (r3 t) (r3 t);
   quad2 (r2 t) (r3 t); quad2 (r1 t) (r3 t); quad2 (r1 t) (r2 t)].
Lemma moved_ok t c : plist (cell_params (mmul (ofZ t) c)) =
  map (fun l => ev l (plist (cell_params c))) (moved t).
Proof.
  destruct t, c as [[a1 a2 a3] [b1 b2 b3] [c1 c2 c3]].
  unfold plist, cell_params, moved, quad, quad2, r1, r2, r3. vunfold.
  cbn [Base.z11 Base.z12 Base.z13 Base.z21 Base.z22 Base.z23 Base.z31 Base.z32 Base.z33 map ev nA nB nC nxi neta nzeta].
  repeat rewrite ?plus_IZR, ?mult_IZR. repeat (apply f_equal2; [ring|]). reflexivity.
Qed.
Fixpoint pull (ls : list lin) (v : lin) : lin :=
  match ls, v with
  | l :: ls', a :: v' => ladd (lscale a l) (pull ls' v')
  | _, _ => []
  end.
Lemma pull_ok xs ls : forall v, ev (pull ls v) xs = ev v (map (fun l => ev l xs) ls).
Proof.
  induction ls as [|l ls IH]; intros [|a v]; cbn [pull map ev]; auto.
  rewrite ev_add, ev_scale, IH. reflexivity.
Qed.

(* ---------------- the table of refutations ---------------- *)
Definition unit_lin (i : nat) : lin := map (fun j => if Nat.eqb i j then 1%Z else 0%Z) (seq 0 6).
Definition box : list (Z * Z * Z) :=
  let s := [-1; 0; 1]%Z in
  flat_map (fun x => flat_map (fun y => map (fun z => (x, y, z)) s) s) s.
Definition lsub (a b : lin) := ladd a (lscale (-1) b).
(* row i of the change of cell has the length of vector i *)
Definition same_length (i : nat) (v : Z * Z * Z) : list cond :=
  let q := quad v v in [(false, lsub q (unit_lin i)); (false, lsub (unit_lin i) q)].
(* rows that are not refuted; None: not refuted *)
Definition rows (cs : list (option tree)) : list (Z * Z * Z) :=
  map fst (filter (fun vc => match snd vc with None => true | _ => false end) (combine box cs)).
Definition rows_ok (ty : bool) (i : nat) (cs : list (option tree)) : bool :=
  Nat.eqb (length cs) 27 &&
  forallb (fun vc => match snd vc with
     | None => true
     | Some t => check (conds ty ++ same_length i (fst vc)) (imps ty) t end) (combine box cs).
Lemma rows_sound ty i cs v xs : rows_ok ty i cs = true -> In v box ->
  Forall (holds xs) (conds ty) -> Forall (iholds xs) (imps ty) -> Forall (holds xs) (same_length i v) ->
  In v (rows cs).
Proof.
  intros H B C I E. apply andb_true_iff in H. destruct H as [L H]. apply Nat.eqb_eq in L.
  assert (B' : exists o, In (v, o) (combine box cs)).
  { assert (G : forall (a : list (Z * Z * Z)) (b : list (option tree)), length a = length b ->
      In v a -> exists o, In (v, o) (combine a b)).
    { induction a as [|x a IH]; intros [|y b] Ln; cbn [List.length] in Ln; try discriminate; cbn [In combine]; [tauto|].
      intros [->|Hi]; [eexists; left; reflexivity|]. destruct (IH b ltac:(lia) Hi) as [o Ho]. eauto. }
    apply G; auto. }
  destruct B' as [o Ho]. rewrite forallb_forall in H. pose proof (H _ Ho) as K. cbn [fst snd] in K.
  destruct o as [t|].
  - exfalso. eapply (check_sound xs); [| |exact K]; auto. apply Forall_app; auto.
  - unfold rows. apply in_map_iff. exists (v, None). split; auto. apply filter_In. auto.
Qed.

Definition zmat_of (a b c : Z * Z * Z) : zmat :=
  let '(a1, a2, a3) := a in let '(b1, b2, b3) := b in let '(c1, c2, c3) := c in
  Zm a1 a2 a3 b1 b2 b3 c1 c2 c3.
Definition changes (l1 l2 l3 : list (Z * Z * Z)) : list zmat :=
  filter (fun t => Z.eqb (zdet t) 1)
    (flat_map (fun a => flat_map (fun b => map (fun c => zmat_of a b c) l3) l2) l1).
Lemma changes_in t l1 l2 l3 : In (r1 t) l1 -> In (r2 t) l2 -> In (r3 t) l3 -> zdet t = 1%Z ->
  In t (changes l1 l2 l3).
Proof.
  intros H1 H2 H3 D. apply filter_In. split; [|apply Z.eqb_eq; auto].
  apply in_flat_map. exists (r1 t). split; auto. apply in_flat_map. exists (r2 t). split; auto.
  apply in_map_iff. exists (r3 t). split; auto. destruct t. reflexivity.
Qed.

(* either no cell of the second type, or the two cells have the same three products *)
Inductive cert := Never (t : tree) | Equal (ts : list tree).
Definition system (ty ty' : bool) (t : zmat) : list cond :=
  conds ty ++ map (fun c => (fst c, pull (moved t) (snd c))) (conds ty') ++
  same_length 0 (r1 t) ++ same_length 1 (r2 t) ++ same_length 2 (r3 t).
Definition isystem (ty ty' : bool) (t : zmat) : list cimp :=
  imps ty ++ map (fun c => (pull (moved t) (fst c), pull (moved t) (snd c))) (imps ty').
Definition diffs (t : zmat) : list cond :=
  flat_map (fun i => let d := lsub (nth i (moved t) []) (unit_lin i) in
    [(true, d); (true, lscale (-1) d)]) [3; 4; 5]%nat.
Definition check_cert (ty ty' : bool) (t : zmat) (c : cert) : bool :=
  match c with
  | Never tr => check (system ty ty' t) (isystem ty ty' t) tr
  | Equal ts => Nat.eqb (length ts) 6 &&
      forallb (fun dt => check (system ty ty' t ++ [fst dt]) (isystem ty ty' t) (snd dt)) (combine (diffs t) ts)
  end.
Fixpoint forall2b {A B} (f : A -> B -> bool) (a : list A) (b : list B) : bool :=
  match a, b with
  | [], [] => true
  | x :: a', y :: b' => f x y && forall2b f a' b'
  | _, _ => false
  end.
Lemma forall2b_in {A B} (f : A -> B -> bool) a : forall b x, forall2b f a b = true -> In x a ->
  exists y, f x y = true.
Proof.
  induction a as [|u a IH]; intros [|v b] x H I; cbn [forall2b] in H; try discriminate; [destruct I|].
  apply andb_true_iff in H. destruct H as [H1 H2]. destruct I as [-> | I]; eauto.
Qed.
Lemma cert_sound ty ty' t c p p' : check_cert ty ty' t c = true ->
  reduced 0 p -> 0 < nA p -> of_type ty p -> reduced 0 p' -> 0 < nA p' -> of_type ty' p' ->
  plist p' = map (fun l => ev l (plist p)) (moved t) ->
  nA p' = nA p -> nB p' = nB p -> nC p' = nC p -> p' = p.
Proof.
  intros K R P T R' P' T' M EA EB EC.
  destruct (reduced_conds ty p R P T) as [C I]. destruct (reduced_conds ty' p' R' P' T') as [C' I'].
  assert (SY : Forall (holds (plist p)) (system ty ty' t)).
  { unfold system. apply Forall_app; split; auto. apply Forall_app; split.
    - apply Forall_map. eapply Forall_impl; [|exact C']. intros [s v] H. unfold holds in *. cbn [fst snd] in *.
      rewrite pull_ok, <- M. exact H.
    - injection M as M1 M2 M3 M4 M5 M6.
      assert (G : forall i v x, ev (quad v v) (plist p) = x -> ev (unit_lin i) (plist p) = x ->
        Forall (holds (plist p)) (same_length i v)).
      { intros i v x H1 H2. unfold same_length.
        apply Forall_cons; [|apply Forall_cons; [|apply Forall_nil]]; unfold holds, lsub; cbn [fst snd];
          rewrite ev_add, ev_scale, H1, H2; lra. }
      apply Forall_app; split; [|apply Forall_app; split].
      + eapply G; [symmetry; exact M1|]. rewrite EA. cbn. lra.
      + eapply G; [symmetry; exact M2|]. rewrite EB. cbn. lra.
      + eapply G; [symmetry; exact M3|]. rewrite EC. cbn. lra. }
  assert (IS : Forall (iholds (plist p)) (isystem ty ty' t)).
  { unfold isystem. apply Forall_app; split; auto. apply Forall_map.
    eapply Forall_impl; [|exact I']. intros [e v] H. unfold iholds in *. cbn [fst snd] in *.
    rewrite !pull_ok, <- M. exact H. }
  destruct c as [tr|ts]; cbn [check_cert] in K.
  - exfalso. eapply check_sound; eauto.
  - apply andb_true_iff in K. destruct K as [L K]. apply Nat.eqb_eq in L.
    destruct ts as [|t1 [|t2 [|t3 [|t4 [|t5 [|t6 [|]]]]]]]; try discriminate L.
    assert (N : forall d, In d (diffs t) -> ~ holds (plist p) d).
    { intros d Hd H. assert (X : exists tr, In (d, tr) (combine (diffs t) [t1; t2; t3; t4; t5; t6])).
      { unfold diffs in *. cbn [flat_map app] in *. cbn [combine In] in *.
        repeat destruct Hd as [<- | Hd]; try contradiction; eauto 10. }
      destruct X as [tr X]. rewrite forallb_forall in K. specialize (K _ X). cbn [fst snd] in K.
      eapply check_sound; [|exact IS|exact K]. apply Forall_app; split; auto. }
    injection M as M1 M2 M3 M4 M5 M6.
    assert (G : forall i x y, In (true, lsub (nth i (moved t) []) (unit_lin i)) (diffs t) ->
      In (true, lscale (-1) (lsub (nth i (moved t) []) (unit_lin i))) (diffs t) ->
      ev (nth i (moved t) []) (plist p) = x -> ev (unit_lin i) (plist p) = y -> x = y).
    { intros i x y H1 H2 Hx Hy. apply N in H1. apply N in H2. unfold holds, lsub in *. cbn [fst snd] in *.
      rewrite ?ev_scale, ?ev_add, ?ev_scale, Hx, Hy in *. lra. }
    assert (E3 : nxi p' = nxi p).
    { apply (G 3%nat); [unfold diffs; cbn [flat_map app In]; auto 10..|symmetry; exact M4|cbn; lra]. }
    assert (E4 : neta p' = neta p).
    { apply (G 4%nat); [unfold diffs; cbn [flat_map app In]; auto 10..|symmetry; exact M5|cbn; lra]. }
    assert (E5 : nzeta p' = nzeta p).
    { apply (G 5%nat); [unfold diffs; cbn [flat_map app In]; auto 10..|symmetry; exact M6|cbn; lra]. }
    destruct p, p'; cbn in *; congruence.
Qed.
