(* F_MonoKinds.v : the LePage model on reduced cells with a single two-fold axis *)
From Verif Require Import Base M_Numerical M_Geometry M_Cell M_Niggli S_Niggli F_Niggli M_Voronoi F_Voronoi F_Geometry
  M_Lepage F_Lepage F_LepageEx F_Bravais F_Angles F_Classify P_Bravais F_Mono F_Axes F_AxesData F_AxesTable F_AxesReal F_AxesKinds F_AxesExcl.
Open Scope R_scope.
Notation metric := F_Bravais.metric.

(* ---------------- vectors perpendicular to the axis ---------------- *)
Definition flat (h : zvec) : list zvec := filter (fun i => negb (zvec_eqb i (Zv 0 0 0)) && (zdot i h =? 0)%Z) (miller 1).
Definition positive (i : zvec) : bool := if (zx i =? 0)%Z then if (zy i =? 0)%Z then (0 <? zz i)%Z else (0 <? zy i)%Z else (0 <? zx i)%Z.
Definition half (h : zvec) : list zvec := filter positive (flat h).
Fixpoint idx (l : list zvec) (i : zvec) : nat :=
  match l with [] => 0%nat | a :: l' => if zvec_eqb a i then 0%nat else if zvec_eqb (zneg a) i then 0%nat else S (idx l' i) end.
Definition midpoint (a b : zvec) : option zvec :=
  let s := zadd a b in if evb s then Some (Zv (zx s / 2) (zy s / 2) (zz s / 2))%Z else None.
Definition known (l : list zvec) (i : zvec) : bool := existsb (fun a => if zvec_eqb a i then true else zvec_eqb (zneg a) i) l.
Definition rk (l : list zvec) (r : list nat) (i : zvec) : nat := nth (idx l i) r 0%nat.
(* the middle of two vectors is shorter than the longer one *)
Definition possible2 (l : list zvec) (r : list nat) (x y : zvec) : bool :=
  match midpoint x y with None => true | Some p => if known l p then Nat.ltb (rk l r p) (Nat.max (rk l r x) (rk l r y)) else true end.
Definition possible (l : list zvec) (r : list nat) : bool :=
  all (fun x => all (fun y => if zvec_eqb x y then true else if zvec_eqb x (zneg y) then true else if possible2 l r x y then possible2 l r x (zneg y) else false) l) l.
Fixpoint nats (n k : nat) : list (list nat) := match k with O => [[]] | S k' => flat_map (fun t => map (fun i => i :: t) (seq 0 n)) (nats n k') end.
Definition pair_of (w : zmat) : option (zvec * zvec) :=
  match us_of [w] with [U] => find (fun p => zvec_eqb (fst p) U) (filter (par [w]) good) | _ => None end.
Definition expected (w : zmat) : Z := if ones w then 1%Z else 2%Z.
Definition sorted_ok (w : zmat) (U h : zvec) (r : list nat) : bool :=
  let l := half h in
  match bsort (fun x y => Nat.leb (rk l r x) (rk l r y)) (flat h) with
  | a :: _ :: c :: _ => (Z.abs (zdet3 a U c) =? expected w)%Z
  | _ => false end.
Definition mono_o (w : zmat) (o : option (zvec * zvec)) : bool :=
  match o with
  | None => false
  | Some (U, h) =>
      let l := half h in
      if all (fun i => known l i) (flat h) then
        if Nat.leb (length l) 1 then Nat.leb (length (flat h)) 2
        else all (fun r => if possible l r then sorted_ok w U h r else true) (nats (length l) (length l))
      else false
  end.
Lemma all_mono : all (fun w => mono_o w (pair_of w)) twos = true.
Proof. vm_compute. reflexivity. Qed.
Definition wide (o : option (zvec * zvec)) : bool := match o with Some (_, h) => Nat.leb 2 (length (half h)) | None => false end.
Lemma ones_wide : all (fun w => if ones w then wide (pair_of w) else true) twos = true.
Proof. vm_compute. reflexivity. Qed.

(* ---------------- small facts ---------------- *)
Lemma idx_known l i : known l i = true -> (idx l i < length l)%nat /\ (nth (idx l i) l (Zv 0 0 0) = i \/ zneg (nth (idx l i) l (Zv 0 0 0)) = i).
Proof.
  induction l as [|a l IH]; cbn; [discriminate|]. destruct (zvec_eqb a i) eqn:E1.
  - intros _. apply zvec_eqb_true in E1. split; [lia|left; exact E1].
  - destruct (zvec_eqb (zneg a) i) eqn:E2.
    + intros _. apply zvec_eqb_true in E2. split; [lia|right; exact E2].
    + cbn [orb]. intros K. destruct (IH K) as (A & B). split; [lia|exact B].
Qed.
Lemma in_nats n : forall r, Forall (fun x => (x < n)%nat) r -> In r (nats n (length r)).
Proof.
  induction r as [|x r IH]; intros F; cbn; auto. inversion_clear F. apply in_flat_map. exists r. split; [apply IH; auto|].
  apply in_map_iff. exists x. split; auto. apply in_seq. lia.
Qed.
Lemma midpoint_some a b p : midpoint a b = Some p -> zadd a b = zadd p p.
Proof.
  unfold midpoint. cbv zeta. generalize (zadd a b). clear a b. intros s. destruct (evb s) eqn:E; [|discriminate]. intros H. injection H as <-. unfold evb in E.
  destruct s as [x y z]. cbn [Base.zx Base.zy Base.zz] in *. unfold zadd; cbn [Base.zx Base.zy Base.zz].
  assert (K : forall t, Z.even t = true -> (t = t / 2 + t / 2)%Z).
  { intros t T. apply Z.even_spec in T. destruct T as (y' & ->). replace (2 * y')%Z with (y' * 2)%Z by ring. rewrite Z.div_mul by lia. ring. }
  rewrite !andb_true_iff in E. f_equal; apply K; apply E.
Qed.

(* ---------------- lengths of the vectors in the plane ---------------- *)
Section Lengths.
  Variables (d : mat) (l : list zvec).
  Hypothesis D : det d <> 0.
  Definition sq (i : zvec) : R := dot (vmat (ofZv i) d) (vmat (ofZv i) d).
  Definition sqs : list R := map sq l.
  Definition rks : list nat := map (fun x => rank sqs (sq x)) l.
  Lemma sq_neg i : sq (zneg i) = sq i.
  Proof. unfold sq, zneg, ofZv. destruct i, d as [[] [] []]. cbn [Base.zx Base.zy Base.zz]. rewrite !opp_IZR. vunfold. ring. Qed.
  Lemma sq_pos i : i <> Zv 0 0 0 -> 0 < sq i.
  Proof.
    intros N. unfold sq. destruct (Rle_lt_dec (dot (vmat (ofZv i) d) (vmat (ofZv i) d)) 0) as [H|H]; auto. exfalso. apply N.
    assert (E : vmat (ofZv i) d = V3 0 0 0).
    { revert H. generalize (vmat (ofZv i) d). intros [x y z] H. vunfold. f_equal; nra. }
    assert (E' : ofZv i = V3 0 0 0).
    { rewrite <- (vmat_id (ofZv i)), <- (minv_r d D), <- vmat_mmul, E. generalize (minv_total d). intros [[] [] []]. vunfold. vcomp; ring. }
    unfold ofZv in E'. injection E' as A B C. apply eq_IZR in A, B, C. destruct i. cbn in A, B, C. subst. reflexivity.
  Qed.
  Lemma sq_mid x y p : zadd x y = zadd p p -> x <> y -> sq p < Rmax (sq x) (sq y).
  Proof.
    intros E N. set (z := Zv (zx x - zx y) (zy x - zy y) (zz x - zz y)).
    assert (P : 0 < sq z).
    { apply sq_pos. intros Z. apply N. unfold z in Z. injection Z as A B C. destruct x, y. cbn in *. f_equal; lia. }
    assert (Q : 4 * sq p = 2 * sq x + 2 * sq y - sq z).
    { assert (EV : vscale 2 (ofZv p) = vadd (ofZv x) (ofZv y)).
      { unfold zadd in E. injection E as A B C. apply (f_equal IZR) in A, B, C. rewrite !plus_IZR in A, B, C. unfold ofZv. vunfold. vcomp; lra. }
      assert (EZ : ofZv z = vsub (ofZv x) (ofZv y)) by (unfold z, ofZv; cbn [Base.zx Base.zy Base.zz]; rewrite !minus_IZR; reflexivity).
      unfold sq. rewrite EZ. transitivity (dot (vmat (vscale 2 (ofZv p)) d) (vmat (vscale 2 (ofZv p)) d)).
      - generalize (ofZv p). destruct d as [[] [] []]. intros []. vunfold. ring.
      - rewrite EV. generalize (ofZv x) (ofZv y). destruct d as [[] [] []]. intros [] []. vunfold. ring. }
    pose proof (Rmax_l (sq x) (sq y)). pose proof (Rmax_r (sq x) (sq y)). lra.
  Qed.
  Lemma rk_sq i : known l i = true -> rk l rks i = rank sqs (sq i) /\ In (sq i) sqs.
  Proof.
    intros K. destruct (idx_known l i K) as (B & E). unfold rk, rks.
    assert (Q : sq (nth (idx l i) l (Zv 0 0 0)) = sq i) by (destruct E as [E|E]; [rewrite E; reflexivity|rewrite <- E at 2; symmetry; apply sq_neg]).
    split.
    - rewrite (nth_indep _ 0%nat (rank sqs (sq (Zv 0 0 0)))) by (rewrite map_length; exact B).
      rewrite (map_nth (fun x => rank sqs (sq x))). rewrite Q. reflexivity.
    - rewrite <- Q. unfold sqs. apply in_map, nth_In, B.
  Qed.
  Lemma known_in i : In i l -> known l i = true.
  Proof. intros I. unfold known. apply existsb_exists. exists i. split; auto. replace (zvec_eqb i i) with true; auto. symmetry. apply zvec_eqb_true. reflexivity. Qed.
  Lemma zneg_neg i : zneg (zneg i) = i.
  Proof. destruct i. unfold zneg; cbn [Base.zx Base.zy Base.zz]. f_equal; lia. Qed.
  Lemma known_neg i : In i l -> known l (zneg i) = true.
  Proof. intros I. unfold known. apply existsb_exists. exists i. split; auto. destruct (zvec_eqb i (zneg i)); auto. apply zvec_eqb_true. reflexivity. Qed.
  Lemma possible2_sq x y : known l x = true -> known l y = true -> x <> y -> possible2 l rks x y = true.
  Proof.
    intros X Y N. unfold possible2. destruct (midpoint x y) as [p|] eqn:M; auto. destruct (known l p) eqn:K; auto. apply midpoint_some in M.
    pose proof (sq_mid x y p M N) as S. destruct (rk_sq x X) as (-> & IX), (rk_sq y Y) as (-> & IY), (rk_sq p K) as (-> & IP). apply Nat.ltb_lt.
    destruct (Rle_lt_dec (sq x) (sq y)).
    - rewrite Rmax_right in S by lra. pose proof (rank_lt sqs _ _ IP S). lia.
    - rewrite Rmax_left in S by lra. pose proof (rank_lt sqs _ _ IP S). lia.
  Qed.
  Lemma possible_sq : possible l rks = true.
  Proof.
    unfold possible. apply all_true. intros x X. apply all_true. intros y Y.
    destruct (zvec_eqb x y) eqn:E1; auto. destruct (zvec_eqb x (zneg y)) eqn:E2; auto.
    assert (x <> y) by (intros <-; rewrite (proj2 (zvec_eqb_true x x) eq_refl) in E1; discriminate).
    assert (x <> zneg y) by (intros ->; rewrite (proj2 (zvec_eqb_true _ _) eq_refl) in E2; discriminate).
    rewrite !possible2_sq; auto using known_in, known_neg.
  Qed.
  Lemma rks_nats : In rks (nats (length l) (length l)).
  Proof.
    replace (length l) with (length rks) at 2 by apply map_length. apply in_nats. apply Forall_forall. intros n I. unfold rks in I. apply in_map_iff in I.
    destruct I as (x & <- & X). rewrite <- (map_length sq l). apply rank_bound. apply in_map, X.
  Qed.
End Lengths.

(* ---------------- what the code finds for a single axis ---------------- *)
Lemma find_pair w U h : pair_of w = Some (U, h) -> us_of [w] = [U] /\ In (U, h) good /\ wmat (U, h) = w.
Proof.
  unfold pair_of. destruct (us_of [w]) as [|u [|v t]]; try discriminate. intros F. apply find_some in F. destruct F as (F & E). cbn [fst] in E.
  apply zvec_eqb_true in E. subst u. apply filter_In in F. destruct F as (G & P). split; auto. split; auto. unfold par in P. apply zmem_true in P.
  destruct P as [P|[]]. auto.
Qed.
Lemma good_even p : In p good -> zeven p = true.
Proof. rewrite good_eq. unfold good_def. intros I. apply filter_In in I. destruct I as (_ & I). destruct (zeven p); auto. Qed.

Lemma flat_perpendicular d U h tol : zeven (U, h) = true -> Sym d (wmat (U, h)) -> 0 < tol -> 2 * tol <= sq d U ->
  perpendicular U d tol = sort_by (fun x => norm (vmat (ofZv x) d)) (flat h).
Proof.
  intros E S T B. apply twofold_sym in S; auto. destruct S as (k & K). destruct (even_sgn U h E) as (S1 & S2).
  assert (EU : sq d U = k * (2 * IZR (zsgn (U, h)))).
  { unfold sq. rewrite dot_metric, K. rewrite <- mult_IZR, <- S1, <- ofZv_dot. generalize (ofZv U) (ofZv h); clear; vring. }
  assert (KA : tol <= Rabs k).
  { assert (Z : (zsgn (U, h) = 1 \/ zsgn (U, h) = -1)%Z) by nia. rewrite EU in B. unfold Rabs. destruct Rcase_abs, Z as [Z|Z]; rewrite Z in B; lra. }
  unfold perpendicular, flat. f_equal. apply filter_ext. intros i. f_equal.
  assert (EI : dot (vmat (ofZv i) d) (vmat (ofZv U) d) = k * IZR (zdot i h)).
  { rewrite <- ofZv_dot. transitivity (dot (vmat (ofZv U) d) (vmat (ofZv i) d)); [apply dot_comm|].
    rewrite dot_metric, K. generalize (ofZv i) (ofZv h); clear; vring. }
  rewrite EI. destruct (Z.eqb_spec (zdot i h) 0) as [Z|Z].
  - rewrite Z, Rmult_0_r, Rabs_R0. apply Rltb_true. lra.
  - apply not_true_is_false. rewrite Rltb_true, Rabs_mult, <- abs_IZR.
    assert (A : (1 <= Z.abs (zdot i h))%Z) by lia. apply IZR_le in A. nra.
Qed.

Lemma sort_length (A : Type) (key : A -> R) l : length (sort_by key l) = length l.
Proof.
  induction l as [|x l IH]; auto. change (length (insert_by key x (sort_by key l)) = S (length l)). rewrite <- IH. generalize (sort_by key l).
  intros m. induction m as [|y m IHm]; cbn; auto. destruct (Rleb (key x) (key y)); cbn; auto.
Qed.
Lemma mono_w_parts w U h : In w twos -> pair_of w = Some (U, h) -> (forall i, In i (flat h) -> known (half h) i = true) /\
  ((length (half h) <= 1)%nat -> (length (flat h) <= 2)%nat) /\
  ((2 <= length (half h))%nat -> forall r, In r (nats (length (half h)) (length (half h))) -> possible (half h) r = true -> sorted_ok w U h r = true).
Proof.
  intros W P. pose proof (proj1 (all_true _ _) all_mono w W) as AM. cbv beta in AM. rewrite P in AM. clear W P. revert AM. unfold mono_o, sorted_ok.
  generalize (half h) (flat h) (expected w). intros l f x AM.
  destruct (all (fun i => known l i) f) eqn:K; [|discriminate]. split; [exact (proj1 (all_true _ _) K)|]. split; intros L.
  - apply Nat.leb_le in L. rewrite L in AM. apply Nat.leb_le, AM.
  - destruct (Nat.leb_spec (length l) 1) as [X|_]; [lia|]. intros r R Q. pose proof (proj1 (all_true _ _) AM r R) as Z. cbv beta in Z. rewrite Q in Z. exact Z.
Qed.
Lemma axis_shortest d w U h tol : det d <> 0 -> In w twos -> Sym d w -> pair_of w = Some (U, h) -> 0 < tol -> 2 * tol <= sq d U ->
  ((2 <= length (half h))%nat -> exists a c, In a (flat h) /\ In c (flat h) /\ get_perpendicular_shortest U d tol = Ok (a, c) /\ Z.abs (zdet3 a U c) = expected w) /\
  ((length (half h) <= 1)%nat -> get_perpendicular_shortest U d tol = Err IndexError).
Proof.
  intros D W S P T B. destruct (mono_w_parts w U h W P) as (K & M1 & M2).
  destruct (find_pair w U h P) as (_ & G & E). unfold get_perpendicular_shortest. rewrite (flat_perpendicular d U h tol (good_even _ G)); auto; [|rewrite E; exact S].
  clear G E P. revert K M1 M2. unfold sorted_ok. generalize (half h) (flat h) (expected w). intros l f x K M1 M2. split; intros L.
  - specialize (M2 L (rks d l) (rks_nats d l) (possible_sq d l D)). cbv zeta in M2.
    rewrite (sort_ext (fun x y => Nat.leb (rk l (rks d l) x) (rk l (rks d l) y))).
    + destruct (bsort _ f) as [|a [|b [|c t]]] eqn:BS; try discriminate. exists a, c.
      assert (IN : forall i, In i (a :: b :: c :: t) -> In i f) by (rewrite <- BS; intros i; apply bsort_in).
      split; [apply IN; left; auto|]. split; [apply IN; right; right; left; auto|]. split; auto. apply Z.eqb_eq, M2.
    + intros y z Y Z. unfold norm. fold (sq d y) (sq d z). rewrite Rleb_sqrt.
      * destruct (rk_sq d l D y (K y Y)) as (-> & _), (rk_sq d l D z (K z Z)) as (-> & IZ). apply rank_leb, IZ.
      * unfold sq. generalize (vmat (ofZv y) d). intros v; destruct v; vunfold; nra.
      * unfold sq. generalize (vmat (ofZv z) d). intros v; destruct v; vunfold; nra.
  - specialize (M1 L). rewrite <- (sort_length _ (fun x => norm (vmat (ofZv x) d)) f) in M1.
    destruct (sort_by _ f) as [|a [|b [|c t]]]; auto. cbn in M1. lia.
Qed.
