(* P_Table.v : property C65, the text of Kpoints.hs_table. *)
From Verif Require Import Base M_Strings M_Dict M_Geometry M_Atoms M_Spglib M_Primitive M_Positions M_Kpoints M_Poscar M_Table F_Strings F_Voronoi F_Atoms F_Primitive F_Kpoints F_Poscar S_Poscar P_Numerals P_Kpoints.
Open Scope string_scope.
Open Scope list_scope.
Open Scope R_scope.

(* ---------------- specification ---------------- *)
Definition no_newline : string -> Prop := all_chars (fun c => c <> newline).
Definition only_blanks : string -> Prop := all_chars (fun c => c = " "%char).
(* the text consists of these lines, with newlines between them *)
Inductive text_of : list string -> string -> Prop :=
| text_one l : text_of [l] l
| text_more l ls t : text_of ls t -> text_of (l :: ls) (l ++ String newline t)%string.
(* w is a number in decimal notation with d decimals, x rounded to them *)
Definition shows (d : nat) (w : string) (x : R) : Prop :=
  exists v, number_word w v /\ Rabs (v - x) <= / 2 * / 10 ^ d /\ exists z, v = IZR z / 10 ^ d.
(* the line of a point: its name, blanks up to a common column, six numbers *)
Definition point_line (d column : nat) (rcell : mat) (name : string) (r : vec) (l : string) : Prop :=
  exists gap cells ws, l = (name ++ gap ++ cells)%string /\ only_blanks gap /\ (String.length name + String.length gap = column)%nat /\
    has_words cells ws /\ Forall2 (shows d) ws [vx r; vy r; vz r; vx (vmat r rcell); vy (vmat r rcell); vz (vmat r rcell)].

(* ---------------- lemmas ---------------- *)
Lemma len_app a b : String.length (a ++ b) = (String.length a + String.length b)%nat.
Proof. induction a; cbn [String.append String.length]; auto. rewrite IHa. reflexivity. Qed.
Lemma len_spaces m : String.length (spaces m) = m.
Proof. induction m; cbn; auto. Qed.
Lemma spaces_blank m : only_blanks (spaces m).
Proof. induction m; cbn; auto. Qed.
Lemma join_text : forall ls, ls <> [] -> text_of ls (join (String LF "") ls).
Proof.
  induction ls as [|l ls IH]; [congruence|]. intros _. destruct ls as [|l2 ls]; [constructor|].
  change (join (String LF "") (l :: l2 :: ls)) with (l ++ String LF "" ++ join (String LF "") (l2 :: ls))%string. cbn [String.append].
  apply text_more. apply IH. discriminate.
Qed.
Lemma shows_format d x : shows d (format_f d x) x.
Proof.
  exists (IZR (round_half_even (x * pow10 d)) / pow10 d). split; [apply C56_numbers, parse_format|]. split; [|rewrite <- pow10_eq; eauto].
  pose proof (fixed_near d x) as F. unfold fixed in F. rewrite <- pow10_eq. exact F.
Qed.
Lemma signed_pad d x : exists n, format_signed d x = (spaces n ++ format_f d x)%string.
Proof.
  unfold format_signed, rjust. destruct (Rltb x 0); cbn [String.append]; [eauto|]. set (m := (d + 3 - _)%nat). exists (S m).
  generalize (format_f d x). induction m as [|m IH]; intros s; [reflexivity|]. change (spaces (S m) ++ String " " s)%string with (String " " (spaces m ++ String " " s))%string.
  rewrite IH. reflexivity.
Qed.
Lemma words_cells l : Forall (fun p => exists n, fst p = (spaces n ++ snd p)%string /\ good_word (snd p)) l -> forall a,
  (exists n, fst a = (spaces n ++ snd a)%string /\ good_word (snd a)) ->
  words (fst a ++ concat_str (map (fun p => String " " (fst p)) l)) = snd a :: map snd l.
Proof.
  induction 1 as [|p l (n & E & G1 & G2) H IH]; intros [a b] (m & E' & G1' & G2'); cbn [map concat_str fst snd] in *.
  - rewrite app_str_nil, E', words_spaces. rewrite <- (app_str_nil b) at 1. apply words_only; [split; auto|exact I].
  - subst a. rewrite app_str_assoc, words_spaces. cbn [String.append]. rewrite words_word by auto. f_equal. 
    specialize (IH p). apply IH. exists n. repeat split; auto.
Qed.

Lemma row_line_ok d nd k name r : lookup name (k_coords k) = Some r -> (String.length name <= nd)%nat ->
  exists l, hs_row (format_signed d) (ljust nd) k name = Ok l /\ point_line d (nd + 2) (k_rcell k) name r l.
Proof.
  intros L N. unfold hs_row, getitem. rewrite L. cbn [bind]. cbv zeta. eexists. split; [reflexivity|]. set (a := vmat r (k_rcell k)).
  unfold ljust. set (g := (nd - String.length name)%nat).
  set (f1 := format_signed d (vx r)). set (f2 := format_signed d (vy r)). set (f3 := format_signed d (vz r)).
  set (f4 := format_signed d (vx a)). set (f5 := format_signed d (vy a)). set (f6 := format_signed d (vz a)).
  exists (spaces g ++ "  ")%string, (f1 ++ " " ++ f2 ++ " " ++ f3 ++ "  " ++ f4 ++ " " ++ f5 ++ " " ++ f6)%string,
    (map (format_f d) [vx r; vy r; vz r; vx a; vy a; vz a]).
  split; [rewrite !app_str_assoc; reflexivity|]. split.
  { generalize g. clear. induction g; cbn; auto. }
  split; [rewrite len_app, len_spaces; cbn [String.length]; lia|].
  split; [|repeat constructor; apply shows_format].
  apply C56_words.
  assert (P : forall x, exists n, format_signed d x = (spaces n ++ format_f d x)%string /\ good_word (format_f d x)).
  { intros x. destruct (signed_pad d x) as (n & E). exists n. split; auto. apply format_word. }
  pose proof (words_cells [(f2, format_f d (vy r)); (f3, format_f d (vz r)); (String " " f4, format_f d (vx a)); (f5, format_f d (vy a)); (f6, format_f d (vz a))]) as W.
  specialize (W ltac:(repeat constructor; cbn [fst snd]; try apply P; destruct (P (vx a)) as (n & E & G); exists (S n); split; [unfold f4; rewrite E; reflexivity|exact G])
    (f1, format_f d (vx r)) (P (vx r))).
  cbn [map fst snd concat_str] in W. rewrite app_str_nil in W. cbn [String.append] in *. exact W.
Qed.
Lemma longest_ge names s : In s names -> (String.length s <= longest names)%nat.
Proof. induction names as [|x l IH]; intros []; unfold longest in *; cbn [fold_right]; [subst; lia|]. specialize (IH H). lia. Qed.
Lemma longest_in names : names <> [] -> exists s, In s names /\ String.length s = longest names.
Proof.
  induction names as [|x l IH]; [congruence|]. intros _. unfold longest in *. cbn [fold_right]. destruct l as [|y l].
  - exists x. cbn. split; auto. lia.
  - destruct IH as (s & I & E); [discriminate|]. set (m := fold_right _ _ _) in *. destruct (Nat.le_gt_cases (String.length x) m).
    + exists s. split; [cbn; auto|lia].
    + exists x. split; [cbn; auto|lia].
Qed.
Lemma rows_ok k d nd : forall names, (forall s, In s names -> In s (keys (k_coords k)) /\ (String.length s <= nd)%nat) ->
  exists rows, mapM (hs_row (format_signed d) (ljust nd) k) names = Ok rows /\
    Forall2 (fun name l => exists r, lookup name (k_coords k) = Some r /\ point_line d (nd + 2) (k_rcell k) name r l) names rows.
Proof.
  induction names as [|s names IH]; intros I; [exists []; split; [reflexivity|constructor]|].
  destruct IH as (rows & E & F); [intros y Hy; apply I; cbn; auto|].
  destruct (I s (or_introl eq_refl)) as (I1 & I2). destruct (proj2 (lookup_in s (k_coords k)) I1) as [v Hv].
  destruct (row_line_ok d nd k s v Hv I2) as (l & L & P). cbn [mapM]. rewrite L. cbn [bind]. rewrite E. cbn [bind]. exists (l :: rows). split; [reflexivity|].
  constructor; eauto.
Qed.
Lemma header_words nd d : has_words (table_header nd d) ["Name"; "rel_b1"; "rel_b2"; "rel_b3"; "k_x"; "k_y"; "k_z"].
Proof.
  apply C56_words. unfold table_header, ljust. rewrite !app_str_assoc.
  assert (G : forall n s, good_word s -> exists m, rjust n s = (spaces m ++ s)%string /\ good_word s) by (intros n s W; unfold rjust; eauto).
  assert (GW : forall s, In s ["rel_b1"; "rel_b2"; "rel_b3"; "k_x"; "k_y"; "k_z"] -> good_word s).
  { intros s H. split; [|intros ->; cbn in H; intuition discriminate]. repeat destruct H as [<-|H]; try contradiction; repeat split. }
  pose proof (words_cells (map (fun s => (rjust (d + 3) s, s)) ["rel_b2"; "rel_b3"] ++ [(String " " (rjust (d + 3) "k_x"), "k_x")] ++ map (fun s => (rjust (d + 3) s, s)) ["k_y"; "k_z"])) as W.
  specialize (W ltac:(cbn [map app]; repeat constructor; cbn [fst snd]; try (apply G, GW; cbn; tauto);
    destruct (G (d + 3)%nat "k_x") as (n & E & Q); [apply GW; cbn; tauto|]; exists (S n); split; [rewrite E; reflexivity|exact Q])
    (rjust (d + 3) "rel_b1", "rel_b1") ltac:(cbn [fst snd]; apply G, GW; cbn; tauto)).
  cbn [map app fst snd concat_str] in W. rewrite app_str_nil in W. cbn [String.append] in *.
  set (rest := (rjust (d + 3) "rel_b1" ++ _)%string) in *. clearbody rest.
  set (m := (nd - String.length "Name")%nat). clearbody m.
  change (words ("Name" ++ (spaces m ++ String " " (String " " rest))) = ["Name"; "rel_b1"; "rel_b2"; "rel_b3"; "k_x"; "k_y"; "k_z"]).
  assert (B : (spaces m ++ String " " (String " " rest) = String " " (spaces m ++ String " " rest))%string).
  { clear. induction m as [|m IH]; [reflexivity|]. change (spaces (S m) ++ String " " (String " " rest))%string with (String " " (spaces m ++ String " " (String " " rest)))%string.
    rewrite IH. reflexivity. }
  rewrite B. rewrite (words_word "Name" " "); [|repeat split|discriminate|reflexivity]. rewrite words_spaces, words_space by reflexivity. rewrite W. reflexivity.
Qed.
Lemma no_newline_app a b : no_newline (a ++ b) <-> no_newline a /\ no_newline b.
Proof. unfold no_newline. induction a; cbn; [tauto|]. rewrite IHa. tauto. Qed.
Lemma blanks_no_newline s : only_blanks s -> no_newline s.
Proof. unfold only_blanks, no_newline. induction s; cbn; auto. intros (-> & B). split; auto. discriminate. Qed.
Lemma signed_no_newline d x : no_newline (format_signed d x).
Proof.
  destruct (signed_pad d x) as (n & ->). apply no_newline_app. split; [apply blanks_no_newline, spaces_blank|].
  apply newline_free. apply no_space_free; [reflexivity|]. apply format_word.
Qed.
Lemma header_no_newline nd d : no_newline (table_header nd d).
Proof.
  unfold table_header, ljust, rjust. rewrite !no_newline_app. repeat split; try discriminate; apply blanks_no_newline, spaces_blank.
Qed.

Lemma row_no_newline d nd name r rcell : no_newline name ->
  no_newline (ljust nd name ++ "  " ++ format_signed d (vx r) ++ " " ++ format_signed d (vy r) ++ " " ++ format_signed d (vz r) ++ "  " ++
    format_signed d (vx (vmat r rcell)) ++ " " ++ format_signed d (vy (vmat r rcell)) ++ " " ++ format_signed d (vz (vmat r rcell))).
Proof.
  intros N. assert (L : no_newline (ljust nd name)) by (apply no_newline_app; split; [exact N|apply blanks_no_newline, spaces_blank]).
  assert (B1 : no_newline " ") by (split; [discriminate|exact I]). assert (B2 : no_newline "  ") by (split; [discriminate|exact B1]).
  repeat first [assumption | apply signed_no_newline | apply no_newline_app; split].
Qed.

(* hs_table prints a header and one line per point, in the order of the points: the name, and the six
   coordinates rounded to the decimals asked for, the relative ones first *)
Theorem C65_table : forall k decimals, reachable k -> k_names k <> [] -> (0 <= decimals)%Z ->
  exists text header rows column, hs_table_text k decimals = Ok text /\ text_of (header :: rows) text /\
    has_words header ["Name"; "rel_b1"; "rel_b2"; "rel_b3"; "k_x"; "k_y"; "k_z"] /\
    Forall2 (fun name l => exists r, lookup name (k_coords k) = Some r /\ point_line (Z.to_nat decimals) column (k_rcell k) name r l) (k_names k) rows /\
    (forall name, In name (k_names k) -> String.length name + 2 <= column)%nat /\ (exists name, In name (k_names k) /\ String.length name + 2 = column)%nat /\
    ((forall name, In name (k_names k) -> no_newline name) -> Forall no_newline (header :: rows)).
Proof.
  intros k dz R N D. pose proof (reachable_consistent k R) as (_ & C & _ & _). set (d := Z.to_nat dz). set (nd := longest (k_names k)).
  destruct (rows_ok k d nd (k_names k)) as (rows & E & F).
  { intros s I. split; [rewrite C; exact I|apply longest_ge; exact I]. }
  exists (join (String LF "") (table_header nd d :: rows)), (table_header nd d), rows, (nd + 2)%nat.
  split. { unfold hs_table_text, hs_table. destruct (k_names k) as [|n0 ns] eqn:EN; [congruence|]. destruct (Z.ltb_spec dz 0); [lia|]. cbv zeta. fold d nd. rewrite E. reflexivity. }
  split; [apply join_text; discriminate|]. split; [apply header_words|]. split; [exact F|].
  split; [intros name I; pose proof (longest_ge _ _ I); unfold nd; lia|]. split.
  { destruct (longest_in _ N) as (s & I & L). exists s. split; [exact I|unfold nd; lia]. }
  intros H. constructor; [apply header_no_newline|]. apply mapM_ok in E.
  revert E H. clear. generalize (k_names k). intros names E. induction E as [|name l names rows E0 E IH]; intros H; [constructor|].
  constructor; [|apply IH; intros; apply H; cbn; auto].
  unfold hs_row in E0. apply F_Conventional.bind_ok in E0. destruct E0 as (r & _ & E0). cbv zeta in E0. injection E0 as <-.
  apply (row_no_newline d nd name r); apply H; cbn; auto.
Qed.
Print Assumptions C65_table.

Theorem C65_refused : forall k decimals, k_names k = [] \/ (decimals < 0)%Z -> hs_table_text k decimals = Err ValueError.
Proof.
  intros k dz H. unfold hs_table_text. destruct (k_names k) as [|n0 ns]; [reflexivity|]. destruct H as [H|H]; [discriminate|].
  destruct (Z.ltb_spec dz 0); [reflexivity|lia].
Qed.
Print Assumptions C65_refused.

(* ---------------- columns ---------------- *)
Lemma dec_one n : (n < 10)%nat -> String.length (dec n) = 1%nat.
Proof. intros H. do 10 (destruct n as [|n]; [reflexivity|]). lia. Qed.
Lemma signed_width d x : Rabs x + / 2 * / 10 ^ d < 10 -> String.length (format_signed d x) = (d + 3)%nat.
Proof.
  intros H. unfold format_signed, rjust. rewrite !len_app, len_spaces. unfold format_f. set (r := round_half_even (x * pow10 d)). cbv zeta. set (t := (10 ^ Z.of_nat d)%Z).
  rewrite !len_app.
  assert (T : (0 < t)%Z) by (apply Z.pow_pos_nonneg; lia).
  assert (Q : (Z.abs r / t < 10)%Z).
  { apply Z.div_lt_upper_bound; auto. pose proof (fixed_near d x) as F. unfold fixed in F. fold r in F. pose proof (pow10_pos d) as P.
    rewrite <- pow10_eq in H. assert (B : Rabs (IZR r / pow10 d) < 10).
    { pose proof (Rabs_triang (IZR r / pow10 d - x) x) as TR. replace (IZR r / pow10 d - x + x) with (IZR r / pow10 d) in TR by ring. lra. }
    unfold Rdiv in B. rewrite Rabs_mult, (Rabs_right (/ pow10 d)) in B by (apply Rle_ge; left; apply Rinv_0_lt_compat; auto).
    apply (Rmult_lt_compat_r (pow10 d)) in B; auto. rewrite Rmult_assoc, Rinv_l in B by lra. rewrite Rmult_1_r, <- abs_IZR in B.
    unfold pow10 in B. rewrite <- mult_IZR in B. apply lt_IZR in B. unfold t. lia. }
  rewrite dec_one.
  2: { pose proof (Z.div_pos (Z.abs r) t ltac:(lia) T). lia. }
  assert (L : (String.length (if Rltb x 0 then "" else " ") + String.length (if Rltb x 0 then "-" else "") = 1)%nat) by (destruct (Rltb x 0); reflexivity).
  assert (G : String.length (match d with O => "" | _ => String "." (last_digits d (Z.abs r mod t)) end) = (match d with O => 0 | S _ => S d end)%nat).
  { destruct d; [reflexivity|]. cbn [String.length]. rewrite last_digits_len. reflexivity. }
  rewrite G. destruct d; lia.
Qed.
(* numbers of one digit before the decimal point (after rounding) *)
Definition fits (d : nat) (rcell : mat) (r : vec) : Prop :=
  Forall (fun x => Rabs x + / 2 * / 10 ^ d < 10) [vx r; vy r; vz r; vx (vmat r rcell); vy (vmat r rcell); vz (vmat r rcell)].
Lemma row_width k d nd name l : (String.length name <= nd)%nat -> hs_row (format_signed d) (ljust nd) k name = Ok l ->
  (forall r, lookup name (k_coords k) = Some r -> fits d (k_rcell k) r) -> String.length l = (nd + 6 * d + 26)%nat.
Proof.
  intros N E F. unfold hs_row, getitem in E. destruct (lookup name (k_coords k)) as [r|] eqn:L; [|discriminate]. cbn [bind] in E. cbv zeta in E. injection E as <-.
  specialize (F r eq_refl). unfold fits in F. repeat match goal with H : Forall _ (_ :: _) |- _ => inversion_clear H end.
  repeat match goal with H : Rabs _ + _ < 10 |- _ => apply signed_width in H end.
  assert (LJ : String.length (ljust nd name) = nd) by (unfold ljust; rewrite len_app, len_spaces; lia).
  revert LJ. generalize (ljust nd name). repeat match goal with H : String.length (format_signed ?a ?b) = _ |- _ => revert H; generalize (format_signed a b); intros ? H end.
  intros nm LJ. repeat (rewrite !len_app; cbn [String.append String.length]). lia.
Qed.
(* All lines of points are equally long when the numbers fit their columns.  The header is that long exactly
   when there is a name of four letters or more and three decimals or more. *)
Theorem C65_columns : forall k decimals header rows, reachable k -> (0 <= decimals)%Z ->
  (forall name r, lookup name (k_coords k) = Some r -> fits (Z.to_nat decimals) (k_rcell k) r) ->
  (exists text, hs_table_text k decimals = Ok text /\ text_of (header :: rows) text) ->
  (forall name, In name (k_names k) -> no_newline name) -> Forall no_newline (header :: rows) ->
  exists width, (forall l, In l rows -> String.length l = width) /\
    (String.length header = width <-> (3 <= decimals)%Z /\ exists name, In name (k_names k) /\ (4 <= String.length name)%nat).
Proof.
  intros k dz header rows R D F (text & E & T) NN NR. pose proof (reachable_consistent k R) as (_ & C & _ & _). set (d := Z.to_nat dz) in *. set (nd := longest (k_names k)).
  assert (NE : k_names k <> []) by (intros Z; unfold hs_table_text in E; rewrite Z in E; discriminate).
  destruct (rows_ok k d nd (k_names k)) as (rows' & E1 & _).
  { intros s I. split; [rewrite C; exact I|apply longest_ge; exact I]. }
  assert (E2 : text = join (String LF "") (table_header nd d :: rows')).
  { unfold hs_table_text, hs_table in E. destruct (k_names k) as [|n0 ns] eqn:EN; [congruence|]. destruct (Z.ltb_spec dz 0); [lia|]. cbv zeta in E. fold d nd in E. rewrite E1 in E. cbn [bind] in E. congruence. }
  destruct (C65_table k dz R NE D) as (text' & h' & rows2 & col & E3 & T3 & _ & _ & _ & _ & NR2).
  (* the lines of a text are determined *)
  assert (DET : forall ls t, text_of ls t -> Forall no_newline ls -> forall ls', text_of ls' t -> Forall no_newline ls' -> ls = ls').
  { assert (AP : forall a b x y, no_newline a -> no_newline b -> (a ++ String newline x = b ++ String newline y)%string -> a = b /\ x = y).
    { induction a as [|c a IH]; intros [|c' b] x y [A1 A2] [B1 B2] Q || intros [|c' b] x y A B Q; cbn [String.append] in Q.
      - injection Q as ->. auto.
      - injection Q as <- _. destruct B as [B _]. congruence.
      - injection Q as -> _. destruct A as [A _]. congruence.
      - injection Q as -> Q. destruct A as [_ A], B as [_ B]. destruct (IH b x y A B Q) as (-> & ->). auto. }
    assert (AN : forall a x, no_newline (a ++ String newline x) -> False).
    { induction a as [|c a IH]; cbn; intros x [A1 A2]; [congruence|]. apply (IH x A2). }
    induction 1 as [l|l ls t T' IH]; intros N1 ls' T2 N2.
    - inversion T2; subst; auto. exfalso. apply (AN l0 t). inversion N1; auto.
    - inversion T2 as [l2 EL|l2 ls2 t2 T4 EL EQ]; subst.
      + exfalso. apply (AN l t). inversion N2; auto.
      + inversion N1; subst. inversion N2; subst. destruct (AP l2 l t2 t ltac:(auto) ltac:(auto) EQ) as (-> & ->). f_equal. apply IH; auto. }
  assert (EQ : header :: rows = table_header nd d :: rows').
  { apply (DET _ _ T NR). - rewrite E2. apply join_text. discriminate.
    - constructor; [apply header_no_newline|]. pose proof (mapM_ok _ _ _ E1) as M. revert M NN. clear. generalize (k_names k). intros names M.
      induction M as [|name l names rows E0 M IH]; intros H; [constructor|]. constructor; [|apply IH; intros; apply H; cbn; auto].
      unfold hs_row in E0. apply F_Conventional.bind_ok in E0. destruct E0 as (r & _ & E0). cbv zeta in E0. injection E0 as <-.
      apply (row_no_newline d nd name r); apply H; cbn; auto. }
  injection EQ as -> ->. exists (nd + 6 * d + 26)%nat. split.
  - intros l I. apply mapM_ok in E1. assert (G : exists name, In name (k_names k) /\ hs_row (format_signed d) (ljust nd) k name = Ok l).
    { revert I E1. generalize (hs_row (format_signed d) (ljust nd) k) as row. generalize (k_names k) as names. clear. intros names row I E1. revert I. induction E1 as [|a b la lb E0 E1 IH]; [intros []|]. intros [<-|I]; [exists a; split; [left; reflexivity|exact E0]|]. destruct (IH I) as (n & I' & Q). exists n. split; [right|]; auto. }
    destruct G as (name & I' & Q). apply (row_width k d nd name); auto; [apply longest_ge; auto|apply F].
  - unfold table_header, ljust, rjust. rewrite !len_app, !len_spaces. cbn [String.length].
    destruct (longest_in _ NE) as (s & I & L). fold nd in L. split.
    + intros W. split; [unfold d in *; lia|]. exists s. split; auto. lia.
    + intros (D3 & name & I' & L4). pose proof (longest_ge _ _ I') as LG. fold nd in LG. unfold d. lia.
Qed.
Print Assumptions C65_columns.

(* an example: two points of a cubic lattice, and what is printed with two decimals *)
Definition two_points : kpoints :=
  match init (mk 2 0 0 0 2 0 0 0 2) [V3 0 0 0; V3 (1 / 2) (- (1 / 4)) 0] (Some ["G"; "XYZW"]) None None 10 with Ok k => k | Err _ => Kp mid [] [] [] [] 0 false end.
Lemma two_points_ok : reachable two_points /\ k_names two_points = ["G"; "XYZW"] /\ k_rcell two_points = mk 2 0 0 0 2 0 0 0 2 /\
  k_coords two_points = [("G", V3 0 0 0); ("XYZW", V3 (1 / 2) (- (1 / 4)) 0)].
Proof.
  repeat split; try reflexivity. exists [], (mk 2 0 0 0 2 0 0 0 2), [V3 0 0 0; V3 (1 / 2) (- (1 / 4)) 0], (Some ["G"; "XYZW"]), None, None, 10%Z, two_points.
  split; [reflexivity|]. split; [|split; [constructor|reflexivity]]. intros ns E. injection E as <-. repeat constructor; cbn; intuition discriminate.
Qed.
Lemma format_exact d x z : x * pow10 d = IZR z -> format_signed d x = rjust (d + 3) (String.append (if Rltb x 0 then "" else " ")
  (let m := Z.abs z in let t := (10 ^ Z.of_nat d)%Z in String.append (if Rltb x 0 then "-" else "")
    (String.append (dec (Z.to_nat (m / t))) (match d with O => "" | _ => String "."%char (last_digits d (m mod t)) end)))).
Proof. intros E. unfold format_signed, format_f. rewrite E, round_int. reflexivity. Qed.
Example C65_case : reachable two_points /\ k_names two_points <> [] /\
  (forall name r, lookup name (k_coords two_points) = Some r -> fits 2 (k_rcell two_points) r) /\
  hs_table_text two_points 2 = Ok (String.append "Name  rel_b1 rel_b2 rel_b3    k_x   k_y   k_z" (String newline
    (String.append "G      0.00  0.00  0.00   0.00  0.00  0.00" (String newline "XYZW   0.50 -0.25  0.00   1.00 -0.50  0.00")))).
Proof.
  destruct two_points_ok as (R & N & C & D). split; [exact R|]. split; [rewrite N; discriminate|]. split.
  - intros name r. rewrite C, D. cbn [lookup]. repeat (destruct (String.eqb _ _); [intros E; injection E as <-|]); [..|discriminate].
    all: unfold fits; vunfold; repeat constructor; unfold Rabs; destruct (Rcase_abs _); lra.
  - assert (P0 : forall x, x = 0 -> format_signed 2 x = " 0.00").
    { intros x ->. rewrite (format_exact 2 0 0) by (unfold pow10; simpl; lra). rewrite (proj2 (Rltb_false 0 0)) by lra. reflexivity. }
    assert (P1 : forall x, x = 1 / 2 -> format_signed 2 x = " 0.50").
    { intros x ->. rewrite (format_exact 2 _ 50) by (unfold pow10; simpl; lra). rewrite (proj2 (Rltb_false _ 0)) by lra. reflexivity. }
    assert (P2 : forall x, x = 1 -> format_signed 2 x = " 1.00").
    { intros x ->. rewrite (format_exact 2 _ 100) by (unfold pow10; simpl; lra). rewrite (proj2 (Rltb_false _ 0)) by lra. reflexivity. }
    assert (P3 : forall x, x = - (1 / 4) -> format_signed 2 x = "-0.25").
    { intros x ->. rewrite (format_exact 2 _ (-25)) by (unfold pow10; simpl; lra). rewrite (proj2 (Rltb_true _ 0)) by lra. reflexivity. }
    assert (P4 : forall x, x = - (1 / 2) -> format_signed 2 x = "-0.50").
    { intros x ->. rewrite (format_exact 2 _ (-50)) by (unfold pow10; simpl; lra). rewrite (proj2 (Rltb_true _ 0)) by lra. reflexivity. }
    unfold hs_table_text, hs_table. rewrite N. change (2 <? 0)%Z with false. cbv iota. change (Z.to_nat 2) with 2%nat. change (longest ["G"; "XYZW"]) with 4%nat. cbv zeta.
    cbn [mapM]. unfold hs_row, getitem. rewrite C, D. change (lookup "G" [("G", V3 0 0 0); ("XYZW", V3 (1 / 2) (- (1 / 4)) 0)]) with (Some (V3 0 0 0)).
    change (lookup "XYZW" [("G", V3 0 0 0); ("XYZW", V3 (1 / 2) (- (1 / 4)) 0)]) with (Some (V3 (1 / 2) (- (1 / 4)) 0)).
    cbv [bind vmat mk dot col1 col2 col3 Base.vx Base.vy Base.vz row1 row2 row3].
    repeat match goal with |- context[format_signed 2 ?x] =>
      first [rewrite (P0 x) by lra | rewrite (P1 x) by lra | rewrite (P2 x) by lra | rewrite (P3 x) by lra | rewrite (P4 x) by lra] end.
    reflexivity.
Qed.
