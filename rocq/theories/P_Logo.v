(* P_Logo.v : property C62, the text returned by logo *)
From Coq Require Import NArith Lia List.
From Verif Require Import Base M_Logo.
Import ListNotations.
Open Scope nat_scope.

(* ---------------- specification ---------------- *)
(* text.split("\n") *)
Fixpoint split_lines (acc t : text) : list text :=
  match t with [] => [acc] | c :: r => if N.eqb c 10 then acc :: split_lines [] r else split_lines (acc ++ [c]) r end.
Definition lines_of (t : text) : list text := split_lines [] t.
Definition one_line (t : text) : Prop := ~ In 10%N t.
Definition blanks (k : nat) : text := repeat 32%N k.
(* the line shows exactly the entry e (and maybe a piece of the picture, which is 10 wide) between
   the prefix and blanks *)
Definition shows (prefix e line : text) : Prop :=
  exists b1 b2 b3 piece, line = prefix ++ blanks b1 ++ e ++ blanks b2 ++ piece ++ blanks b3 /\ (piece = [] \/ In piece cat_art).
Definition art_height (flat : bool) : nat := if flat then 5 else 6.
Definition art_width (flat : bool) : nat := if flat then 61 else 62.
(* the lines of information below the picture *)
Definition entries (info : option (list text)) (date_time : bool) (now : text) : list text :=
  match info with Some l => l | None => default_info date_time now end.
Definition below (flat : bool) (t : text) : list text := skipn (art_height flat) (lines_of t).
Definition wide (flat : bool) (line_length : option Z) : nat :=
  match line_length with None => art_width flat | Some l => Nat.max (art_width flat) (Z.to_nat l) end.

(* ---------------- lemmas ---------------- *)
Lemma split_app acc x r : one_line x -> split_lines acc (x ++ newline :: r) = (acc ++ x) :: split_lines [] r.
Proof.
  revert acc. induction x as [|c x IH]; intros acc H; cbn.
  - rewrite app_nil_r. reflexivity.
  - destruct (N.eqb_spec c 10) as [->|]; [exfalso; apply H; left; auto|].
    rewrite IH by (intros F; apply H; right; auto). rewrite <- app_assoc. reflexivity.
Qed.
Lemma split_one acc x : one_line x -> split_lines acc x = [acc ++ x].
Proof.
  revert acc. induction x as [|c x IH]; intros acc H; cbn.
  - rewrite app_nil_r. reflexivity.
  - destruct (N.eqb_spec c 10) as [->|]; [exfalso; apply H; left; auto|].
    rewrite IH by (intros F; apply H; right; auto). rewrite <- app_assoc. reflexivity.
Qed.
Lemma lines_concat (f : text -> text) l : l <> [] -> (forall x, In x l -> one_line (f x)) ->
  lines_of (removelast (concat (map (fun x => f x ++ [newline]) l))) = map f l.
Proof.
  induction l as [|x l IH]; [congruence|]. intros _ H. destruct l as [|y l].
  - cbn [map concat]. rewrite app_nil_r, removelast_last. unfold lines_of. rewrite split_one by (apply H; left; auto). reflexivity.
  - change (concat (map (fun x0 => f x0 ++ [newline]) (x :: y :: l))) with ((f x ++ [newline]) ++ concat (map (fun x0 => f x0 ++ [newline]) (y :: l))).
    rewrite removelast_app.
    + rewrite <- app_assoc. cbn [app]. unfold lines_of. rewrite split_app by (apply H; left; auto). cbn [app].
      unfold lines_of in IH. rewrite IH; [reflexivity|discriminate|]. intros z Hz. apply H. right. auto.
    + cbn [map concat]. destruct (f y); cbn; discriminate.
Qed.
Lemma one_line_app x y : one_line x -> one_line y -> one_line (x ++ y).
Proof. unfold one_line. intros A B H. apply in_app_or in H. tauto. Qed.
Lemma one_line_blanks k : one_line (repeat space k).
Proof. intros H. apply repeat_spec in H. discriminate. Qed.
Lemma one_line_center w x : one_line x -> one_line (center w x).
Proof. intros H. unfold center. apply one_line_app; [apply one_line_blanks|apply one_line_app; [auto|apply one_line_blanks]]. Qed.
Lemma center_length w x : length (center w x) = Nat.max w (length x).
Proof.
  unfold center. rewrite !app_length, !repeat_length.
  pose proof (Nat.div_le_upper_bound (w - length x) 2 (w - length x)). lia.
Qed.
Lemma cat_one_line i : one_line (nth i cat_art []).
Proof. do 7 (destruct i as [|i]; [cbn; intros H; repeat destruct H as [H|H]; try discriminate; destruct H|]). destruct i; cbn; intros []. Qed.
Lemma art_one_line (flat : bool) x : In x (if flat then flat_art else logo_art) -> one_line x.
Proof. destruct flat; cbn [In flat_art logo_art]; intros H; repeat destruct H as [<-|H]; try destruct H; intros F; repeat destruct F as [F|F]; try discriminate; destruct F. Qed.
Lemma py_nth_in l i : (- Z.of_nat (length l) <= i < Z.of_nat (length l))%Z -> In (py_nth l i) l.
Proof. intros H. unfold py_nth. apply nth_In. destruct (Z.ltb_spec i 0); lia. Qed.
Lemma py_nth_spec l i : (- Z.of_nat (length l) <= i < Z.of_nat (length l))%Z ->
  nth_error l (Z.to_nat (i mod Z.of_nat (length l))) = Some (py_nth l i).
Proof.
  intros H. unfold py_nth. rewrite <- (nth_error_nth' l [] ) by (destruct (Z.ltb_spec i 0); lia). f_equal.
  destruct (Z.ltb_spec i 0).
  - rewrite <- (Z_mod_plus_full i 1). rewrite Z.mod_small; lia.
  - rewrite Z.mod_small; lia.
Qed.

Lemma half_le a : a / 2 + a mod 2 <= a /\ (2 <= a -> 0 < a / 2) /\ a = 2 * (a / 2) + a mod 2 /\ a mod 2 < 2.
Proof. pose proof (Nat.div_mod a 2). pose proof (Nat.mod_upper_bound a 2). lia. Qed.

Definition before_of (L : nat) : nat := (L - 7) / 2.
Definition skip_of (L : nat) : nat := if L <=? 7 then (7 - L) / 2 + (7 - L) mod 2 else 0.

(* shape of the lines with information *)
Lemma info_lines_length w n info : length (info_lines w n info) = if length info =? 0 then 0 else Nat.max 7 (length info).
Proof.
  unfold info_lines. change (length cat_art) with 7. destruct (length info =? 0) eqn:E; [reflexivity|].
  destruct (length info <=? 7) eqn:F; rewrite map_length, seq_length; [apply Nat.leb_le in F|apply Nat.leb_gt in F]; lia.
Qed.
Lemma nth_map_seq {A} (f : nat -> A) n i : i < n -> nth_error (map f (seq 0 n)) i = Some (f i).
Proof.
  intros H. rewrite nth_error_map. replace (nth_error (seq 0 n) i) with (Some i); [reflexivity|].
  symmetry. rewrite (nth_error_nth' _ 0) by (rewrite seq_length; auto). rewrite seq_nth by auto. reflexivity.
Qed.
Lemma info_lines_small w n info i : 0 < length info <= 7 -> i < length info ->
  exists c, nth_error (info_lines w n info) (skip_of (length info) + i) = Some (center w (nth i info []) ++ center n c) /\ In c cat_art.
Proof.
  intros [L0 L7] Hi. unfold info_lines, skip_of. change (length cat_art) with 7.
  destruct (Nat.eqb_spec (length info) 0); [lia|]. destruct (Nat.leb_spec (length info) 7); [|lia].
  set (b := (7 - length info) / 2 + (7 - length info) mod 2). destruct (half_le (7 - length info)) as (B & _). fold b in B.
  exists (nth (b + i) cat_art []). rewrite nth_map_seq by lia.
  replace ((b + i <? b) || (7 - (7 - length info - b) <=? b + i)) with false.
  - split; [|apply nth_In; change (length cat_art) with 7; lia]. do 3 f_equal. unfold py_nth.
    destruct (Z.ltb_spec (Z.of_nat (b + i) - Z.of_nat b) 0); [lia|]. f_equal. lia.
  - symmetry. apply orb_false_iff. split; [apply Nat.ltb_ge|apply Nat.leb_gt]; lia.
Qed.
Lemma info_lines_large w n info i : 7 < length info -> i < length info ->
  exists c, nth_error (info_lines w n info) i = Some (center w (py_nth info (Z.of_nat i - Z.of_nat (before_of (length info)))) ++ c) /\
    (c = [] \/ exists p, In p cat_art /\ c = center n p).
Proof.
  intros L7 Hi. unfold info_lines, before_of. change (length cat_art) with 7.
  destruct (Nat.eqb_spec (length info) 0); [lia|]. destruct (Nat.leb_spec (length info) 7); [lia|].
  set (b := (length info - 7) / 2). destruct (half_le (length info - 7)) as (B & _ & B2 & _). fold b in B, B2.
  rewrite nth_map_seq by lia.
  destruct ((i <? b) || (length info - (length info - 7 - b) <=? i)) eqn:E.
  - exists []. rewrite app_nil_r. auto.
  - apply orb_false_iff in E. destruct E as [E1 E2]. apply Nat.ltb_ge in E1. apply Nat.leb_gt in E2.
    exists (center n (nth (i - b) cat_art [])). split; [reflexivity|]. right. eexists. split; [|reflexivity].
    apply nth_In. change (length cat_art) with 7. lia.
Qed.
Lemma info_lines_each w n info x : In x (info_lines w n info) ->
  exists e c, (e = ljust w [space] \/ exists y, In y info /\ e = center w y) /\ (c = [] \/ exists i, c = center n (nth i cat_art [])) /\ x = e ++ c.
Proof.
  unfold info_lines. change (length cat_art) with 7. destruct (Nat.eqb_spec (length info) 0); [intros []|].
  destruct (Nat.leb_spec (length info) 7); intros H0; apply in_map_iff in H0; destruct H0 as (i & <- & Hi); apply in_seq in Hi.
  - destruct (half_le (7 - length info)) as (B & _). set (b := (7 - length info) / 2 + (7 - length info) mod 2) in *.
    destruct ((i <? b) || _) eqn:E.
    + eexists _, _. split; [left; reflexivity|]. split; [right; eexists; reflexivity|]. reflexivity.
    + apply orb_false_iff in E. destruct E as [E1 E2]. apply Nat.ltb_ge in E1. apply Nat.leb_gt in E2.
      eexists (center w (py_nth info (Z.of_nat i - Z.of_nat b))), _. split; [right; eexists; split; cycle 1; [reflexivity|apply py_nth_in; lia]|]. split; [right; eexists; reflexivity|]. reflexivity.
  - destruct (half_le (length info - 7)) as (B & _ & B2 & B3). set (b := (length info - 7) / 2) in *.
    destruct ((i <? b) || _) eqn:E.
    + exists (center w (py_nth info (Z.of_nat i - Z.of_nat b))), []. split; [right; eexists; split; cycle 1; [reflexivity|apply py_nth_in; lia]|]. split; [left; reflexivity|]. rewrite app_nil_r; reflexivity.
    + eexists (center w (py_nth info (Z.of_nat i - Z.of_nat b))), _. split; [right; eexists; split; cycle 1; [reflexivity|apply py_nth_in; lia]|]. split; [right; eexists; reflexivity|]. reflexivity.
Qed.

Lemma art_lines (flat : bool) : length (map (center (art_width flat)) (if flat then flat_art else logo_art)) = art_height flat.
Proof. destruct flat; reflexivity. Qed.
Lemma wide_ok flat ll : match ll with None => art_width flat | Some l => if (l <? Z.of_nat (art_width flat))%Z then art_width flat else Z.to_nat l end = wide flat ll.
Proof. destruct ll as [l|]; [|reflexivity]. unfold wide. destruct (Z.ltb_spec l (Z.of_nat (art_width flat))); lia. Qed.

Lemma logo_lines info ll flat dt now c :
  (forall e, In e (entries info dt now) -> one_line e) -> one_line (comment_text c) ->
  lines_of (logo info ll flat dt now c) =
  map (fun x => comment_text c ++ center (wide flat ll) x)
      (map (center (art_width flat)) (if flat then flat_art else logo_art) ++ info_lines (art_width flat - 12) 12 (entries info dt now)).
Proof.
  intros HI HC. unfold logo. fold (entries info dt now).
  assert (EN : length (nth 0 (if flat then flat_art else logo_art) []) = art_width flat) by (destruct flat; reflexivity).
  rewrite EN, wide_ok. change (length (nth 0 cat_art []) + 2) with 12.
  set (W := wide flat ll). set (l := map _ _ ++ _).
  rewrite <- (lines_concat (fun x => comment_text c ++ center W x)).
  - f_equal. f_equal. f_equal. apply map_ext. intros x. rewrite <- app_assoc. reflexivity.
  - unfold l. destruct flat; discriminate.
  - intros x Hx. apply one_line_app; [auto|]. apply one_line_center. unfold l in Hx. apply in_app_or in Hx. destruct Hx as [Hx|Hx].
    + apply in_map_iff in Hx. destruct Hx as (y & <- & Hy). apply one_line_center. eapply art_one_line; eauto.
    + apply info_lines_each in Hx. destruct Hx as (e & p & He & Hp & ->). apply one_line_app.
      * destruct He as [->|(y & Hy & ->)]; [apply one_line_app; [intros [H|[]]; discriminate|apply one_line_blanks]|apply one_line_center; auto].
      * destruct Hp as [->|(i & ->)]; [intros []|apply one_line_center, cat_one_line].
Qed.
Lemma below_lines info ll flat dt now c :
  (forall e, In e (entries info dt now) -> one_line e) -> one_line (comment_text c) ->
  below flat (logo info ll flat dt now c) =
  map (fun x => comment_text c ++ center (wide flat ll) x) (info_lines (art_width flat - 12) 12 (entries info dt now)).
Proof.
  intros HI HC. unfold below. rewrite logo_lines by auto. rewrite map_app, skipn_app, map_length, art_lines, Nat.sub_diag.
  rewrite skipn_all2 by (rewrite map_length, art_lines; auto). reflexivity.
Qed.
Lemma center_split w x : exists a b, center w x = blanks a ++ x ++ blanks b.
Proof. unfold center. eauto. Qed.
Lemma blanks_app a b : blanks a ++ blanks b = blanks (a + b).
Proof. unfold blanks. rewrite repeat_app. reflexivity. Qed.
Lemma shows_plain p W w e : shows p e (p ++ center W (center w e)).
Proof.
  destruct (center_split w e) as (a & b & ->). destruct (center_split W (blanks a ++ e ++ blanks b)) as (a' & b' & ->).
  exists (a' + a), b, b', []. split; [|auto]. rewrite <- blanks_app, !app_assoc, app_nil_r. reflexivity.
Qed.
Lemma shows_cat p W w e c : In c cat_art -> shows p e (p ++ center W (center w e ++ center 12 c)).
Proof.
  intros H. destruct (center_split w e) as (a & b & ->). destruct (center_split 12 c) as (x & y & ->).
  destruct (center_split W ((blanks a ++ e ++ blanks b) ++ blanks x ++ c ++ blanks y)) as (a' & b' & ->).
  exists (a' + a), (b + x), (y + b'), c. split; [|auto]. rewrite <- !blanks_app, !app_assoc. reflexivity.
Qed.

(* ---------------- C62 ---------------- *)
(* How many lines there are, and how long: with entries of at most 50 characters (49 for the flat
   logo) all lines have the requested length after the comment. *)
Theorem C62_shape : forall info line_length flat date_time now comment,
  (forall e, In e (entries info date_time now) -> one_line e) -> one_line (comment_text comment) ->
  let lines := lines_of (logo info line_length flat date_time now comment) in
  length lines = art_height flat + (if length (entries info date_time now) =? 0 then 0 else Nat.max 7 (length (entries info date_time now))) /\
  (forall l, In l lines -> exists rest, l = comment_text comment ++ rest) /\
  ((forall e, In e (entries info date_time now) -> length e <= art_width flat - 12) ->
   forall l, In l lines -> length l = length (comment_text comment) + wide flat line_length).
Proof.
  intros info ll flat dt now c HI HC lines. unfold lines. rewrite logo_lines by auto. split; [|split].
  - rewrite map_length, app_length, art_lines, info_lines_length. reflexivity.
  - intros l H. apply in_map_iff in H. destruct H as (x & <- & _). eauto.
  - intros HW l H. apply in_map_iff in H. destruct H as (x & <- & Hx). rewrite app_length, center_length. f_equal.
    assert (AW : art_width flat <= wide flat ll) by (unfold wide; destruct ll; lia).
    enough (length x <= art_width flat) by lia. apply in_app_or in Hx. destruct Hx as [Hx|Hx].
    + apply in_map_iff in Hx. destruct Hx as (y & <- & Hy). rewrite center_length.
      enough (length y <= art_width flat) by lia. destruct flat; cbn [In flat_art logo_art] in Hy; repeat destruct Hy as [<-|Hy]; try destruct Hy; cbn; lia.
    + apply info_lines_each in Hx. destruct Hx as (e & p & He & Hp & ->). rewrite app_length.
      assert (A12 : 12 < art_width flat) by (destruct flat; cbn; lia).
      assert (length e <= art_width flat - 12).
      { destruct He as [->|(y & Hy & ->)]; [unfold ljust; cbn [app length]; rewrite repeat_length; cbn; lia|]. rewrite center_length. specialize (HW y Hy). lia. }
      assert (length p <= 12).
      { destruct Hp as [->|(i & ->)]; [cbn; lia|]. rewrite center_length.
        assert (length (nth i cat_art []) <= 10) by (do 7 (destruct i as [|i]; [cbn; lia|]); destruct i; cbn; lia). lia. }
      lia.
Qed.
Print Assumptions C62_shape.

(* The documentation allows 50 characters; for the flat logo 50 is too many. *)
Theorem C62_fifty_characters_refuted : exists info,
  (forall e, In e info -> one_line e /\ length e <= 50) /\
  exists l, In l (lines_of (logo (Some info) None true false [] CNone)) /\ length l <> wide true None.
Proof.
  exists [repeat 120%N 50]. split.
  - intros e [<-|[]]. split; [intros H; apply repeat_spec in H; discriminate|cbn; lia].
  - rewrite logo_lines; [|intros e [<-|[]] H; apply repeat_spec in H; discriminate|intros []].
    eexists. split; [apply in_map, in_or_app; right; apply (nth_In (n := 3) _ [])|].
    + rewrite info_lines_length. cbn. lia.
    + cbn. discriminate.
Qed.
Print Assumptions C62_fifty_characters_refuted.

(* Up to eight entries are shown in their order, on consecutive lines below the logo. *)
Theorem C62_in_order : forall info line_length flat date_time now comment,
  let es := entries info date_time now in
  (forall e, In e es -> one_line e) -> one_line (comment_text comment) -> 0 < length es <= 8 ->
  exists start, forall i e, nth_error es i = Some e ->
  exists line, nth_error (below flat (logo info line_length flat date_time now comment)) (start + i) = Some line /\
    shows (comment_text comment) e line.
Proof.
  intros info ll flat dt now c es HI HC [L0 L8]. unfold es in *. rewrite below_lines by auto. set (l := entries info dt now) in *.
  exists (skip_of (length l)). intros i e E. assert (Hi : i < length l) by (apply nth_error_Some; congruence).
  rewrite nth_error_map. destruct (Nat.leb_spec (length l) 7).
  - destruct (info_lines_small (art_width flat - 12) 12 l i) as (p & -> & Hp); [lia|auto|]. cbn [option_map].
    eexists. split; [reflexivity|]. rewrite (nth_error_nth l i [] E). apply shows_cat. auto.
  - assert (L : length l = 8) by lia. rewrite L. change (skip_of 8 + i) with i.
    destruct (info_lines_large (art_width flat - 12) 12 l i) as (p & -> & Hp); [lia|auto|]. cbn [option_map].
    eexists. split; [reflexivity|]. rewrite L. change (before_of 8) with 0.
    replace (py_nth l (Z.of_nat i - Z.of_nat 0)) with e.
    + destruct Hp as [->|(q & Hq & ->)]; [rewrite app_nil_r; apply shows_plain|apply shows_cat; auto].
    + symmetry. unfold py_nth. destruct (Z.ltb_spec (Z.of_nat i - Z.of_nat 0) 0); [lia|].
      replace (Z.to_nat (Z.of_nat i - Z.of_nat 0)) with i by lia. apply nth_error_nth; auto.
Qed.
Print Assumptions C62_in_order.

(* With nine or more every entry is still shown once, but the list is rotated: the i-th line
   shows the entry (i - b) modulo the number of entries, b = (number - 7) // 2 > 0. *)
Theorem C62_rotated : forall info line_length flat date_time now comment,
  let es := entries info date_time now in
  (forall e, In e es -> one_line e) -> one_line (comment_text comment) -> 8 < length es ->
  let b := (length es - 7) / 2 in
  0 < b /\ forall i e, nth_error es i = Some e ->
  exists line, nth_error (below flat (logo info line_length flat date_time now comment)) ((i + b) mod length es) = Some line /\
    shows (comment_text comment) e line.
Proof.
  intros info ll flat dt now c es HI HC L8 b. unfold es in *. rewrite below_lines by auto. set (l := entries info dt now) in *.
  destruct (half_le (length l - 7)) as (B & B1 & B2 & B3). fold b in B, B1, B2. split; [lia|]. intros i e E.
  assert (Hi : i < length l) by (apply nth_error_Some; congruence).
  set (j := (i + b) mod length l). assert (Hj : j < length l) by (apply Nat.mod_upper_bound; lia).
  rewrite nth_error_map. destruct (info_lines_large (art_width flat - 12) 12 l j) as (p & -> & Hp); [lia|auto|]. cbn [option_map].
  eexists. split; [reflexivity|].
  replace (py_nth l (Z.of_nat j - Z.of_nat (before_of (length l)))) with e.
  - destruct Hp as [->|(q & Hq & ->)]; [rewrite app_nil_r; apply shows_plain|apply shows_cat; auto].
  - change (before_of (length l)) with b.
    pose proof (py_nth_spec l (Z.of_nat j - Z.of_nat b) ltac:(lia)) as P.
    replace (Z.to_nat ((Z.of_nat j - Z.of_nat b) mod Z.of_nat (length l))) with i in P; [congruence|].
    unfold j. rewrite Nat2Z.inj_mod, Zminus_mod_idemp_l, Nat2Z.inj_add.
    replace (Z.of_nat i + Z.of_nat b - Z.of_nat b)%Z with (Z.of_nat i) by lia. rewrite Z.mod_small by lia. lia.
Qed.
Print Assumptions C62_rotated.

Lemma shows_starts p e line : shows p e line -> exists k rest, line = p ++ blanks k ++ e ++ rest.
Proof. intros (a & b & c & q & -> & _). eauto. Qed.
Definition nine : list text := map (fun k => [k]) [97; 98; 99; 100; 101; 102; 103; 104; 105]%N.
(* so the order is lost: with the entries a .. i, i is above a *)
Theorem C62_in_order_refuted :
  exists x y, nth_error (below false (logo (Some nine) None false false [] CNone)) 0 = Some x /\ shows [] [105%N] x /\
              nth_error (below false (logo (Some nine) None false false [] CNone)) 1 = Some y /\ shows [] [97%N] y.
Proof.
  destruct (C62_rotated (Some nine) None false false [] CNone) as [_ H].
  - intros e. cbn. intros HE F. repeat destruct HE as [<-|HE]; try destruct HE; destruct F as [F|[]]; discriminate.
  - intros [].
  - cbn. lia.
  - destruct (H 8 [105%N] eq_refl) as (x & Ex & Sx). destruct (H 0 [97%N] eq_refl) as (y & Ey & Sy). exists x, y. auto.
Qed.
Print Assumptions C62_in_order_refuted.

(* No comment is asked for with None; False is not the same: the word is printed on every line. *)
Theorem C62_comment : forall info line_length flat date_time now,
  (forall e, In e (entries info date_time now) -> one_line e) ->
  (forall l, In l (lines_of (logo info line_length flat date_time now (CBool true))) -> exists rest, l = ascii_text "# " ++ rest) /\
  (forall l, In l (lines_of (logo info line_length flat date_time now (CBool false))) -> exists rest, l = ascii_text "False" ++ rest) /\
  map (fun l => ascii_text "# " ++ l) (lines_of (logo info line_length flat date_time now CNone)) = lines_of (logo info line_length flat date_time now (CBool true)).
Proof.
  intros info ll flat dt now HI.
  assert (A : one_line (ascii_text "# ")) by (intros H; cbn in H; intuition discriminate).
  assert (B : one_line (ascii_text "False")) by (intros H; cbn in H; intuition discriminate).
  split; [|split].
  - apply (C62_shape info ll flat dt now (CBool true)); auto.
  - apply (C62_shape info ll flat dt now (CBool false)); auto.
  - rewrite !logo_lines; auto; [|intros []]. rewrite map_map. reflexivity.
Qed.
Print Assumptions C62_comment.

(* Non-vacuity: the default information. *)
Example C62_nonvacuous : let now := ascii_text "Generated on 1 May 2026 at 9:5:7 " in
  (forall dt e, In e (entries None dt now) -> one_line e /\ length e <= 49) /\ length (entries None true now) = 7 /\ length (entries None false now) = 5 /\
  length (lines_of (logo None (Some 80%Z) false true now CNone)) = 13.
Proof.
  cbv zeta. split; [|repeat split].
  intros dt e H. destruct dt; cbn in H; repeat destruct H as [<-|H]; try destruct H; (split; [intros F; cbn in F; repeat destruct F as [F|F]; try discriminate; try destruct F|cbn; lia]).
Qed.
