(* F_AxesTable.v : every closed set of two-fold rotations is in the table of F_AxesData.v *)
From Verif Require Import Base F_Axes F_AxesData.
Open Scope Z_scope.

Lemma unit3_true x : unit3 x = true <-> x = -1 \/ x = 0 \/ x = 1.
Proof.
  split; [|intros [->|[->| ->]]; reflexivity]. destruct x as [|p|p]; cbn; auto; destruct p; cbn; auto; discriminate.
Qed.
Lemma smallm_true w : smallm w = true -> forall x, In x [z11 w; z12 w; z13 w; z21 w; z22 w; z23 w; z31 w; z32 w; z33 w] -> x = -1 \/ x = 0 \/ x = 1.
Proof. unfold smallm. rewrite all_true. intros H x I. apply unit3_true, H, I. Qed.
Lemma in_units x : x = -1 \/ x = 0 \/ x = 1 -> In x [-1; 0; 1].
Proof. cbn. intuition. Qed.
Lemma in_triples u : (zx u = -1 \/ zx u = 0 \/ zx u = 1) -> (zy u = -1 \/ zy u = 0 \/ zy u = 1) -> (zz u = -1 \/ zz u = 0 \/ zz u = 1) -> In u triples.
Proof.
  intros X Y Z. destruct u as [x y z]; cbn [Base.zx Base.zy Base.zz] in *. unfold triples. apply in_flat_map. exists x. split; [apply in_units, X|].
  apply in_flat_map. exists y. split; [apply in_units, Y|]. apply in_map_iff. exists z. split; [reflexivity|apply in_units, Z].
Qed.
Lemma in_twos w : smallm w = true -> is_two w = true -> In w twos.
Proof.
  intros S T. rewrite twos_eq. unfold twos_def. apply filter_In. split; [|exact T].
  pose proof (smallm_true w S) as I. destruct w as [a b c d e f g h i]. cbn [z11 z12 z13 z21 z22 z23 z31 z32 z33 In] in I.
  apply in_flat_map. exists (Zv a b c). split; [apply in_triples; cbn; apply I; auto|].
  apply in_flat_map. exists (Zv d e f). split; [apply in_triples; cbn; apply I; auto 10|].
  apply in_map_iff. exists (Zv g h i). split; [reflexivity|apply in_triples; cbn; apply I; auto 12].
Qed.
Lemma twos_two w : In w twos -> is_two w = true.
Proof. rewrite twos_eq. unfold twos_def. intros H. apply filter_In in H. apply H. Qed.

(* ---------------- closure ---------------- *)
Section Closed.
  Variable P : zmat -> Prop.
  Hypothesis Pmul : forall a b, P a -> P b -> P (zmul a b).
  Hypothesis Psmall : forall a, P a -> smallm a = true.
  Lemma news_P x l : P x -> (forall w, In w l -> P w) -> exists m, news x l = Some m /\ forall w, In w m -> P w.
  Proof.
    intros X. induction l as [|y l IH]; intros H; cbn [news]; [exists []; split; [reflexivity|intros w []]|].
    destruct IH as (m & E & M); [intros; apply H; right; auto|]. assert (Y : P y) by (apply H; left; reflexivity).
    rewrite !Psmall by auto. rewrite E. eexists. split; [reflexivity|]. intros w W.
    destruct (is_two (zmul x y)); cbn in W; intuition (subst; auto).
  Qed.
  Lemma close_P n : forall todo l, (forall w, In w todo -> P w) -> (forall w, In w l -> P w) ->
    exists m, close n todo l = Some m /\ forall w, In w m -> P w.
  Proof.
    induction n as [|n IH]; intros todo l T H; cbn [close]; [eauto|]. destruct todo as [|x todo]; [eauto|].
    destruct (zmem x l); [apply IH; auto; intros; apply T; right; auto|].
    destruct (news_P x l) as (m & -> & M); auto; [apply T; left; reflexivity|]. apply IH.
    - intros w W. apply in_app_iff in W. destruct W; auto. apply T. right. auto.
    - intros w [<-|W]; auto. apply T. left. reflexivity.
  Qed.
End Closed.

(* ---------------- the table ---------------- *)
Record entry := Entry { e_set : list zmat; e_code : nat; e_X : zmat }.
Definition entry_of (q : list nat * nat * zmat) : entry :=
  let '(ids, c, X) := q in Entry (map (fun i => nth i twos zone) ids) c X.
Definition entries_def : list entry := map entry_of entries_data.
Definition entries : list entry := Eval vm_compute in entries_def.
Definition seteqb : list zmat -> list zmat -> bool :=
  fix f l m := match l, m with [], [] => true | a :: l', b :: m' => if zeqb a b then f l' m' else false | _, _ => false end.
Lemma seteqb_true : forall l m, seteqb l m = true -> l = m.
Proof.
  induction l as [|a l IH]; intros [|b m] H; cbn in H; try discriminate; auto. destruct (zeqb a b) eqn:E; [|discriminate].
  apply zeqb_true in E. subst. f_equal. auto.
Qed.
Fixpoint listed (l : list zmat) (es : list entry) : bool := match es with [] => false | e :: es' => if seteqb l (e_set e) then true else listed l es' end.
Lemma listed_true l es : listed l es = true -> exists e, In e es /\ e_set e = l.
Proof.
  induction es as [|e es IH]; cbn; [discriminate|]. destruct (seteqb l (e_set e)) eqn:E.
  - intros _. apply seteqb_true in E. exists e. auto.
  - intros H. destruct (IH H) as (e' & I & Q). exists e'. auto.
Qed.
Definition grows (A : list zmat) (w : zmat) : bool :=
  if zmem w A then true else
  match close 500 [w] A with
  | None => true
  | Some l => let m := canon l in if Nat.ltb (length A) (length m) then if Nat.leb (length m) 9 then listed m entries else false else false
  end.
Definition table_closed : bool := all (fun e => all (grows (e_set e)) twos) entries.
Lemma table_closed_true : table_closed = true.
Proof. vm_compute. reflexivity. Qed.

Lemma table_covers (P : zmat -> Prop) : (forall a b, P a -> P b -> P (zmul a b)) -> (forall a, P a -> smallm a = true) -> (forall a, P a \/ ~ P a) ->
  exists e, In e entries /\ (forall w, In w twos -> (In w (e_set e) <-> P w)) /\ (forall w, In w (e_set e) -> P w).
Proof.
  intros Pm Ps Pd.
  assert (GO : forall n e, In e entries -> (forall w, In w (e_set e) -> P w) -> (length (e_set e) + n >= 9)%nat -> (length (e_set e) <= 9)%nat ->
    exists e, In e entries /\ (forall w, In w twos -> (In w (e_set e) <-> P w)) /\ (forall w, In w (e_set e) -> P w)).
  { induction n as [|n IH]; intros e I H L L'.
    all: assert (D : (exists w, In w twos /\ P w /\ ~ In w (e_set e)) \/ (forall w, In w twos -> P w -> In w (e_set e))).
    1, 3: generalize twos; intros l; induction l as [|a l [IHl|IHl]]; [right; intros w []|left; destruct IHl as (w & W1 & W2); exists w; split; [right; auto|auto]|];
      (destruct (Pd a) as [Pa|Pa]; [destruct (zmem a (e_set e)) eqn:M|]);
      [right; intros w [<-|W]; auto; intros _; apply zmem_true, M
      |left; exists a; split; [left; auto|split; auto; intros X; apply zmem_true in X; congruence]
      |right; intros w [<-|W] X; [contradiction|auto]].
    all: (destruct D as [(w & W1 & W2 & W3)|D]; [|exists e; split; [auto|split; [|auto]]; intros w W; split; auto]).
    all: pose proof table_closed_true as T; unfold table_closed in T; rewrite all_true in T; specialize (T e I); rewrite all_true in T; specialize (T w W1).
    all: unfold grows in T; destruct (zmem w (e_set e)) eqn:M; [apply zmem_true in M; contradiction|].
    all: destruct (close_P P Pm Ps 500 [w] (e_set e)) as (l & E & HM); [intros x [<-|[]]; auto|auto|].
    all: rewrite E in T; cbv zeta in T; set (m := canon l) in *;
      assert (HC : forall x, In x m -> P x) by (unfold m, canon; intros x X; apply filter_In in X; destruct X as (_ & X); apply zmem_true in X; auto); clearbody m.
    all: destruct (Nat.ltb_spec (length (e_set e)) (length m)) as [G|G]; [|discriminate];
      destruct (Nat.leb_spec (length m) 9) as [G'|G']; [|discriminate].
    - exfalso. clear - L L' G G'. lia.
    - apply listed_true in T. destruct T as (e' & I' & <-). apply (IH e'); auto. clear - L G. lia. }
  apply (GO 9%nat (Entry [] 13%nat zone)).
  - left. reflexivity.
  - intros w [].
  - cbn. auto.
  - cbn. auto with arith.
Qed.
