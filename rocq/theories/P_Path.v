(* P_Path.v : properties C42 (names of the recommended k-path), C43 (crystals without inversion),
   C45 (plot labels), C53 (relative and absolute coordinates). *)
From Verif Require Import Base M_Strings M_Dict M_Numerical M_Geometry M_Cell M_Niggli M_Atoms T_Tables T_Points M_Spglib M_Conventional
  M_Primitive M_Variation M_Kpoints M_Path F_Geometry F_Voronoi F_Strings F_Atoms F_Kpoints S_Crystal F_Conventional F_Primitive
  P_Conventional P_Monoclinic P_Primitive P_Variation P_Symbol.
Open Scope string_scope.
Open Scope list_scope.
Open Scope R_scope.

Lemma nodup_app_l {A} (l m : list A) : NoDup (l ++ m) -> NoDup l.
Proof. induction l as [|x l IH]; cbn; intros H; [constructor|]. inversion H; subst. constructor; auto. intros I. apply H2. apply in_or_app; auto. Qed.
(* ---------- what is checked of a table and its path ---------- *)
Fixpoint nodup_b (l : list string) : bool := match l with [] => true | x :: l' => (negb (mem x l') && nodup_b l')%bool end.
Lemma nodup_b_iff l : nodup_b l = true <-> NoDup l.
Proof.
  induction l as [|x l IH]; cbn; [split; auto using NoDup_nil|]. rewrite andb_true_iff, negb_true_iff, mem_false, IH. split.
  - intros (A & B). constructor; auto.
  - intros H. inversion H; auto.
Qed.
Fixpoint strings_eqb (a b : list string) : bool :=
  match a, b with [], [] => true | x :: a', y :: b' => (String.eqb x y && strings_eqb a' b')%bool | _, _ => false end.
Lemma strings_eqb_eq a b : strings_eqb a b = true -> a = b.
Proof.
  revert b; induction a as [|x a IH]; intros [|y b] H; cbn in H; try discriminate; auto.
  apply andb_true_iff in H. destruct H as (H & H'). apply String.eqb_eq in H. subst. f_equal. auto.
Qed.
Fixpoint paths_eqb (a b : list (list string)) : bool :=
  match a, b with [], [] => true | x :: a', y :: b' => (strings_eqb x y && paths_eqb a' b')%bool | _, _ => false end.
Lemma paths_eqb_eq a b : paths_eqb a b = true -> a = b.
Proof.
  revert b; induction a as [|x a IH]; intros [|y b] H; cbn in H; try discriminate; auto.
  apply andb_true_iff in H. destruct H as (H & H'). apply strings_eqb_eq in H. subst. f_equal. auto.
Qed.
Definition others (ks : list string) : list string := filter (fun k => negb (String.eqb k "GAMMA")) ks.
Definition with_primes (ks : list string) : list string := ks ++ map (fun k => String.append k "_P") (others ks).
Definition label_of (s : string) : string := match lookup s HS_PLOT_NAMES with Some l => l | None => "" end.
Definition table_ok (ks : list string) (path : string) : bool :=
  match get_path_as_list path with
  | Ok l => forallb (fun s => mem s ks) (concat l) && mem "GAMMA" ks && nodup_b (with_primes ks) &&
            forallb (fun s => mem s (keys HS_PLOT_NAMES)) (with_primes ks) &&
            nodup_b (map label_of (with_primes ks)) &&
            match extend_path path with
            | Ok path' => match get_path_as_list path' with Ok l' => paths_eqb l' (l ++ map (map prime) l) | Err _ => false end
            | Err _ => false
            end
  | Err _ => false
  end.

(* ---------- the tables ---------- *)
Ltac table_cases H :=
  repeat match type of H with
  | (if Reqb ?x 0 then _ else _) = _ => destruct (Reqb x 0); [discriminate|]
  end.
Definition table_keys (T : res (dict vec)) (ks : list string) : Prop := forall pts, T = Ok pts -> keys pts = ks.
Ltac keys_of := intros pts H; cbv beta delta [hpkot_table_69 hpkot_table_70 hpkot_table_71 hpkot_table_72 hpkot_table_73 hpkot_table_74 hpkot_table_75
   hpkot_table_76 hpkot_table_77 hpkot_table_78 hpkot_table_79 hpkot_table_80 hpkot_table_81 hpkot_table_82 hpkot_table_83 hpkot_table_84
   hpkot_table_85 hpkot_table_86 hpkot_table_87 hpkot_table_88 hpkot_table_89 hpkot_table_90 hpkot_table_91 hpkot_table_92
   sc_table_2 sc_table_3 sc_table_4 sc_table_5 sc_table_6 sc_table_7 sc_table_8 sc_table_9 sc_table_10 sc_table_11 sc_table_12 sc_table_13
   sc_table_14 sc_table_15 sc_table_16 sc_table_17 sc_table_18 sc_table_19 sc_table_20 sc_table_21] in H;
  cbv zeta in H; table_cases H; try unbind H; injection H as <-; cbn [keys map fst]; reflexivity.
Definition good (T : res (dict vec)) (path : string) : Prop := forall pts, T = Ok pts -> table_ok (keys pts) path = true.
Lemma good_keys T ks path : table_keys T ks -> table_ok ks path = true -> good T path.
Proof. intros K O pts H. rewrite (K _ H). exact O. Qed.
Ltac good_table := eapply good_keys; [keys_of|vm_compute; reflexivity].
Lemma hpkot_good c lt s path : good (hpkot_get_points c lt s) path \/ getitem s HPKOT_DEFAULT_K_PATHS <> Ok path.
Proof.
  destruct (getitem s HPKOT_DEFAULT_K_PATHS) as [path'|] eqn:G; [|right; discriminate].
  destruct (String.eqb_spec path' path) as [->|N]; [|right; congruence]. left.
  apply getitem_ok, lookup_pair in G. unfold good, hpkot_get_points. intros pts H.
  apply bind_ok in H. destruct H as (p & _ & H). cbv zeta in H. unfold HPKOT_DEFAULT_K_PATHS in G. cbn [In] in G.
  repeat (destruct G as [G|G]; [injection G as <- <-; cbv [mem existsb String.eqb Ascii.eqb Bool.eqb orb] in H; revert pts H;
     match goal with |- forall pts, ?T = Ok pts -> table_ok (keys pts) ?q = true => change (good T q) end; good_table|]).
  contradiction.
Qed.
Lemma single_variation spglib cell atoms arg d v s : obtain_data spglib cell atoms arg = Ok d -> mem (lattice_type d) ["tI"; "oF"; "hR"; "mC"; "aP"] = false ->
  lookup (lattice_type d) SC_BRAVAIS_LATTICE_SHORT_NAMES = Some s ->
  sc_get_variation spglib cell atoms arg = Ok v -> v = Some s.
Proof.
  intros D M L H. unfold sc_get_variation in H. rewrite D in H. cbn [bind] in H. cbv zeta in H. rewrite M in H.
  unfold getitem in H. rewrite L in H. cbn [bind] in H. congruence.
Qed.
Lemma sc_good spglib cell atoms arg d c v path : obtain_data spglib cell atoms arg = Ok d ->
  sc_get_variation spglib cell atoms arg = Ok v -> lookup_path v = Ok path -> good (sc_get_points c (lattice_type d) v) path.
Proof.
  intros D V P pts H. unfold sc_get_points in H. apply bind_ok in H. destruct H as (p & _ & H). cbv zeta in H.
  destruct (lookup (lattice_type d) SC_BRAVAIS_LATTICE_SHORT_NAMES) as [s|] eqn:L; [|discriminate].
  assert (S := single_variation _ _ _ _ _ v s D). specialize (fun M => S M L V).
  apply lookup_pair in L. unfold SC_BRAVAIS_LATTICE_SHORT_NAMES in L. cbn [In] in L.
  Ltac sc_case P H S :=
    repeat match type of H with
    | (if is_variation ?v ?s then _ else _) = _ => destruct (is_variation v s) eqn:?
    | (if one_of ?v ?s then _ else _) = _ => let E := fresh in destruct (one_of v s) eqn:E; [unfold one_of in E; cbn [existsb] in E; rewrite orb_false_r in E; apply orb_true_iff in E; destruct E|]
    end; try discriminate;
    repeat match goal with E : is_variation ?v ?s = true |- _ => destruct v as [?v0|]; [|discriminate]; cbn [is_variation] in E; apply String.eqb_eq in E; subst end;
    try (rewrite (S eq_refl) in P; clear S);
    cbv [lookup_path getitem lookup SC_DEFAULT_K_PATHS String.eqb Ascii.eqb Bool.eqb] in P; injection P as <-;
    match type of H with ?T = Ok ?q => revert q H end;
    match goal with |- forall pts, ?T = Ok pts -> table_ok (keys pts) ?q = true => change (good T q) end; good_table.
  repeat (destruct L as [L|L]; [injection L as E1 E2; rewrite <- E1 in S; subst s; cbv [String.eqb Ascii.eqb Bool.eqb] in H; sc_case P H S|]).
  contradiction.
Qed.

(* ---------- the whole function ---------- *)
Lemma place_keys r cell rel pts pts' : place_points r cell rel pts = Ok pts' -> keys pts' = keys pts.
Proof.
  unfold place_points. intros H. apply bind_ok in H. destruct H as (b & _ & H). injection H as <-. unfold keys. rewrite map_map. reflexivity.
Qed.
Definition table_of (spglib : option spglib_module) (cell : mat) (atoms : atoms_dict) (d : spglib_data) (convention : string) : res (dict vec * string) :=
  if String.eqb (lower convention) "sc" then
    do (conventional_cell, _) <- get_conventional spglib cell atoms convention (Data d);
    do v <- sc_get_variation spglib cell atoms (Data d);
    do points <- sc_get_points conventional_cell (lattice_type d) v;
    do kpath <- lookup_path v;
    Ok (points, kpath)
  else
    do (conventional_cell, _) <- get_conventional spglib cell atoms convention (Data d);
    do s <- hpkot_get_extended_bl_symbol spglib cell atoms (Data d);
    do points <- hpkot_get_points conventional_cell (lattice_type d) s;
    do kpath <- getitem s HPKOT_DEFAULT_K_PATHS;
    Ok (points, kpath).
Lemma path_inv spglib cell atoms arg cv tr rel path pts :
  get_path_and_points spglib cell atoms arg cv tr rel = Ok (path, pts) ->
  exists d pts0 path0 pc pa r pts1 inv, obtain_data spglib cell atoms arg = Ok d /\ table_of spglib cell atoms d cv = Ok (pts0, path0) /\
    table_ok (keys pts0) path0 = true /\ get_primitive spglib cell atoms cv (Data d) = Ok (pc, pa) /\ get_reciprocal pc = Ok r /\
    place_points r cell rel pts0 = Ok pts1 /\ zlookup (space_group_number d) INVERSION_SYMMETRY = Some inv /\
    (if negb inv && negb tr then extend_path path0 = Ok path /\ pts = extend_points pts1 else path = path0 /\ pts = pts1) /\
    In (lower cv) ["sc"; "hpkot"].
Proof.
  unfold get_path_and_points. intros H. apply bind_ok in H. destruct H as (d & D & H).
  apply bind_ok in H. destruct H as ([cc ca] & C & H). apply bind_ok in H. destruct H as ([pc pa] & P & H). cbv zeta in H.
  apply bind_ok in H. destruct H as ([pts0 path0] & T & H). apply bind_ok in H. destruct H as (r & R & H).
  apply bind_ok in H. destruct H as (pts1 & Q & H). apply bind_ok in H. destruct H as (inv & I & H).
  assert (TK : table_of spglib cell atoms d cv = Ok (pts0, path0) /\ table_ok (keys pts0) path0 = true /\ In (lower cv) ["sc"; "hpkot"]).
  { unfold table_of. destruct (String.eqb_spec (lower cv) "sc") as [E|E].
    - rewrite C. cbn [bind]. split; [exact T|]. split; [|rewrite E; cbn; auto].
      apply bind_ok in T. destruct T as (v & V & T). apply bind_ok in T. destruct T as (p & S & T). apply bind_ok in T. destruct T as (k & K & T).
      injection T as -> ->. exact (sc_good _ _ _ _ _ _ _ _ (obtain_again _ _ _ _ _ D) V K _ S).
    - rewrite C. cbn [bind]. destruct (String.eqb_spec (lower cv) "hpkot") as [E'|E']; [|discriminate]. split; [exact T|]. split; [|rewrite E'; cbn; auto].
      apply bind_ok in T. destruct T as (v & V & T). apply bind_ok in T. destruct T as (p & S & T). apply bind_ok in T. destruct T as (k & K & T).
      injection T as -> ->. destruct (hpkot_good cc (lattice_type d) v path0) as [G|G]; [exact (G _ S)|contradiction]. }
  destruct TK as (TB & TO & TC).
  exists d, pts0, path0, pc, pa, r, pts1, inv. repeat (split; auto).
  - unfold zgetitem in I. destruct (zlookup _ _); congruence.
  - destruct (negb inv && negb tr).
    + apply bind_ok in H. destruct H as (k & K & H). injection H as <- <-. auto.
    + injection H as <- <-. auto.
Qed.
Lemma extend_keys pts : NoDup (with_primes (keys pts)) -> keys (extend_points pts) = with_primes (keys pts) /\
  (forall k v, In (k, v) pts -> In (k, v) (extend_points pts) /\ (k <> "GAMMA" -> In (String.append k "_P", vneg v) (extend_points pts))).
Proof.
  intros ND. unfold extend_points.
  assert (X : forall l acc, NoDup (keys acc ++ map (fun k => String.append k "_P") (others (keys l))) ->
     let d := fold_left (fun d kv => if String.eqb (fst kv) "GAMMA" then d else setitem (String.append (fst kv) "_P") (vneg (snd kv)) d) l acc in
     keys d = keys acc ++ map (fun k => String.append k "_P") (others (keys l)) /\
     (forall kv, In kv acc -> In kv d) /\
     (forall k v, In (k, v) l -> k <> "GAMMA" -> In (String.append k "_P", vneg v) d)).
  { induction l as [|[k v] l IH]; intros acc N; cbn [fold_left].
    - cbn [keys map others filter] in *. rewrite app_nil_r. cbn. split; auto. split; auto. tauto.
    - cbn [fst snd]. unfold others in *. cbn [keys map filter fst] in N |- *.
      destruct (String.eqb_spec k "GAMMA") as [E|E]; cbn [negb] in N |- *.
      + destruct (IH acc N) as (A & B & C). split; auto. split; auto. intros k' v' [I|I] NG; [injection I as -> ->; contradiction|auto].
      + cbn [map] in N |- *. set (kp := String.append k "_P") in *.
        assert (NI : ~ In kp (keys acc)).
        { intros I. apply NoDup_remove_2 in N. apply N. apply in_or_app. left. auto. }
        assert (SET : forall (d : dict vec) w, ~ In kp (keys d) -> setitem kp w d = d ++ [(kp, w)]).
        { induction d as [|[k' v'] d IHd]; intros w NI'; cbn; auto. cbn in NI'.
          destruct (String.eqb_spec kp k'); [exfalso; apply NI'; auto|]. rewrite IHd; auto. }
        rewrite (SET _ _ NI).
        assert (N' : NoDup (keys (acc ++ [(kp, vneg v)]) ++ map (fun k => String.append k "_P") (filter (fun k => negb (String.eqb k "GAMMA")) (keys l)))).
        { unfold keys. rewrite map_app. cbn [map fst]. rewrite <- app_assoc. exact N. }
        destruct (IH _ N') as (A & B & C). split; [|split].
        * rewrite A. unfold keys. rewrite map_app. cbn [map fst]. rewrite <- app_assoc. reflexivity.
        * intros kv I. apply B. apply in_or_app. auto.
        * intros k' v' [I|I] NG; [injection I as <- <-|auto]. apply B. apply in_or_app. right. cbn. auto. }
  destruct (X pts pts ND) as (A & B & C). split; auto.
Qed.
Lemma table_ok_spec ks path : table_ok ks path = true -> exists l, get_path_as_list path = Ok l /\ incl (concat l) ks /\ In "GAMMA" ks /\
  NoDup (with_primes ks) /\ incl (with_primes ks) (keys HS_PLOT_NAMES) /\ NoDup (map label_of (with_primes ks)) /\
  exists path', extend_path path = Ok path' /\ get_path_as_list path' = Ok (l ++ map (map prime) l).
Proof.
  unfold table_ok. destruct (get_path_as_list path) as [l|]; [|discriminate]. intros H.
  apply andb_true_iff in H. destruct H as (H & H5). apply andb_true_iff in H. destruct H as (H & H4).
  apply andb_true_iff in H. destruct H as (H & H3). apply andb_true_iff in H. destruct H as (H & H2).
  apply andb_true_iff in H. destruct H as (H1 & H6).
  exists l. split; auto. split; [apply forallb_mem; auto|]. split; [apply mem_true; auto|]. split; [apply nodup_b_iff; auto|].
  split; [apply forallb_mem; auto|]. split; [apply nodup_b_iff; auto|].
  destruct (extend_path path) as [path'|]; [|discriminate]. exists path'. split; auto.
  destruct (get_path_as_list path') as [l'|]; [|discriminate]. f_equal. apply paths_eqb_eq. auto.
Qed.
Lemma with_primes_in ks s : In s ks -> In (prime s) (with_primes ks).
Proof.
  intros I. unfold with_primes, prime. apply in_or_app. destruct (String.eqb_spec s "GAMMA") as [->|N]; auto.
  right. apply in_map_iff. exists s. split; auto. apply filter_In. split; auto. apply String.eqb_neq in N. rewrite N. reflexivity.
Qed.
Lemma concat_map_in {A B} (f : A -> B) (l : list (list A)) x : In x (concat (map (map f) l)) -> exists y, In y (concat l) /\ f y = x.
Proof.
  intros I. apply in_concat in I. destruct I as (m & M & I). apply in_map_iff in M. destruct M as (m' & <- & M).
  apply in_map_iff in I. destruct I as (y & E & I). exists y. split; auto. apply in_concat. eauto.
Qed.

(* ================= C42: the path uses defined points ================= *)
Theorem C42_path_points_defined : forall spglib cell atoms arg cv tr rel path pts,
  get_path_and_points spglib cell atoms arg cv tr rel = Ok (path, pts) ->
  exists l, get_path_as_list path = Ok l /\ incl (concat l) (keys pts) /\ In "GAMMA" (keys pts) /\ NoDup (keys pts) /\
    (forall s, In s (keys pts) -> exists label, lookup s HS_PLOT_NAMES = Some label).
Proof.
  intros spglib cell atoms arg cv tr rel path pts H.
  destruct (path_inv _ _ _ _ _ _ _ _ _ H) as (d & pts0 & path0 & pc & pa & r & pts1 & inv & D & T & K & P & R & Q & I & E & CV).
  apply table_ok_spec in K. destruct K as (l & L & IL & G & ND & HS & NL & path' & X & L').
  assert (LB : forall ks, incl ks (keys HS_PLOT_NAMES) -> forall s, In s ks -> exists label, lookup s HS_PLOT_NAMES = Some label).
  { intros ks IN s S. apply lookup_in. auto. }
  apply place_keys in Q. rewrite <- Q in *. destruct (negb inv && negb tr).
  - destruct E as (E & ->). assert (path' = path) by congruence. subst. exists (l ++ map (map prime) l).
    destruct (extend_keys pts1 ND) as (EK & _). rewrite EK. split; auto. split; [|split; [|split; [auto|apply LB; auto]]].
    + intros s S. rewrite concat_app in S. apply in_app_or in S. destruct S as [S|S].
      * apply in_or_app. left. auto.
      * apply concat_map_in in S. destruct S as (y & Y & <-). apply with_primes_in. auto.
    + apply in_or_app. auto.
  - destruct E as (-> & ->). exists l. split; auto. split; auto. split; auto. unfold with_primes in ND, HS. split.
    + apply nodup_app_l in ND. auto.
    + apply LB. intros s S. apply HS. apply in_or_app. auto.
Qed.
Print Assumptions C42_path_points_defined.

(* Kpoints.from_crystal succeeds on the same crystals, and keeps the points, their order, the path and the labels. *)
Theorem C42_from_crystal : forall spglib cell atoms arg cv tr n path pts,
  get_path_and_points spglib cell atoms arg cv tr true = Ok (path, pts) ->
  exists k, from_crystal spglib cell atoms cv tr n arg = Ok k /\
    k_names k = keys pts /\ k_coords k = pts /\ k_n k = n /\ get_reciprocal cell = Ok (k_rcell k) /\
    get_path_as_list path = Ok (k_path k) /\
    (forall s, In s (keys pts) -> lookup s (k_labels k) = lookup s HS_PLOT_NAMES).
Proof.
  intros spglib cell atoms arg cv tr n path pts H. unfold from_crystal. rewrite H. cbn [bind].
  destruct (C42_path_points_defined _ _ _ _ _ _ _ _ _ H) as (l & L & IL & _ & ND & LB).
  assert (MM : exists ls, mapM (fun name => getitem name HS_PLOT_NAMES) (keys pts) = Ok ls /\ length ls = length (keys pts)).
  { apply mapM_getitem. intros s S. apply lookup_in. auto. }
  destruct MM as (ls & M & LEN). rewrite M. cbn [bind].
  destruct (path_inv _ _ _ _ _ _ _ _ _ H) as (d & pts0 & path0 & pc & pa & r & pts1 & inv & D & T & K & P & R & Q & I & E & CV).
  unfold place_points in Q. apply bind_ok in Q. destruct Q as (b & Q & _). apply bind_ok in Q. destruct Q as (rc & RC & _).
  rewrite RC. cbn [bind]. unfold init. cbv zeta.
  assert (LK : length (keys pts) = length (map snd pts)) by (unfold keys; rewrite !map_length; auto).
  rewrite (proj2 (Nat.eqb_eq _ _)) by lia. cbn [bind]. rewrite (proj2 (Nat.eqb_eq _ _)) by lia. cbn [bind].
  assert (CP : combine (keys pts) (map snd pts) = pts).
  { clear. unfold keys. induction pts as [|[k v] pts IH]; cbn; auto. f_equal. auto. }
  rewrite CP. rewrite make_dict_nodup by exact ND.
  unfold check_path, read_path. rewrite L. cbn [bind]. rewrite (proj2 (forallb_mem _ _) IL). cbn [bind].
  eexists. split; [reflexivity|]. cbn [k_names k_coords k_n k_rcell k_path k_labels]. repeat (split; auto).
  intros s S. rewrite make_dict_nodup by (rewrite combine_fst; auto).
  clear - M S. revert ls M S. generalize (keys pts). intros ks. induction ks as [|k ks IH]; intros ls M S; [contradiction|].
  cbn [mapM] in M. apply bind_ok in M. destruct M as (v & V & M). apply bind_ok in M. destruct M as (vs & VS & M). injection M as <-.
  cbn [combine lookup]. destruct (String.eqb_spec s k) as [->|N]; [apply getitem_ok in V; auto|].
  apply IH; auto. destruct S; [congruence|auto].
Qed.
Print Assumptions C42_from_crystal.

(* ================= C43: crystals without inversion ================= *)
Definition primed (s s' : string) : Prop := (s = "GAMMA" /\ s' = "GAMMA") \/ (s <> "GAMMA" /\ s' = String.append s "_P").
Lemma prime_primed s : primed s (prime s).
Proof. unfold primed, prime. destruct (String.eqb_spec s "GAMMA"); auto. Qed.
Lemma lookup_nodup {A} (d : dict A) k v : NoDup (keys d) -> In (k, v) d -> lookup k d = Some v.
Proof.
  induction d as [|[k' v'] d IH]; intros N I; [contradiction|]. cbn in *. inversion N as [|? ? N1 N2]; subst.
  destruct I as [I|I]; [injection I as -> ->; rewrite String.eqb_refl; auto|].
  destruct (String.eqb_spec k k') as [->|]; auto. exfalso. apply N1. apply in_map_iff. exists (k', v). auto.
Qed.
Theorem C43_inversion : forall spglib cell atoms arg cv rel path pts d,
  get_path_and_points spglib cell atoms arg cv true rel = Ok (path, pts) -> obtain_data spglib cell atoms arg = Ok d ->
  in_ranges (space_group_number d) centrosymmetric ->
  get_path_and_points spglib cell atoms arg cv false rel = Ok (path, pts).
Proof.
  intros spglib cell atoms arg cv rel path pts d H D C.
  assert (RG : (1 <= space_group_number d <= 230)%Z).
  { apply in_ranges_iff in C. unfold existsb, centrosymmetric, in_range_b, fst, snd in C. lia. }
  destruct (C41_tables _ RG) as (f & c & b & _ & _ & I & _ & _ & B & _). apply B in C. subst b.
  revert H. unfold get_path_and_points. rewrite D. cbn [bind].
  destruct (get_conventional _ _ _ _ _) as [[? ?]|]; [|discriminate]. cbn [bind].
  destruct (get_primitive _ _ _ _ _) as [[? ?]|]; [|discriminate]. cbn [bind]. cbv zeta.
  match goal with |- (bind ?x _ = _) -> _ => destruct x as [[? ?]|]; [|discriminate] end. cbn [bind].
  match goal with |- (bind ?x _ = _) -> _ => destruct x as [?|]; [|discriminate] end. cbn [bind].
  match goal with |- (bind ?x _ = _) -> _ => destruct x as [?|]; [|discriminate] end. cbn [bind].
  unfold zgetitem. rewrite I. cbn [bind negb andb]. auto.
Qed.
Print Assumptions C43_inversion.
Theorem C43_no_inversion : forall spglib cell atoms arg cv rel path pts d,
  get_path_and_points spglib cell atoms arg cv true rel = Ok (path, pts) -> obtain_data spglib cell atoms arg = Ok d ->
  ~ in_ranges (space_group_number d) centrosymmetric ->
  exists path' pts' l l', get_path_and_points spglib cell atoms arg cv false rel = Ok (path', pts') /\
    get_path_as_list path = Ok l /\ get_path_as_list path' = Ok (l ++ l') /\ Forall2 (Forall2 primed) l l' /\
    (forall k v, lookup k pts = Some v -> lookup k pts' = Some v /\ (k <> "GAMMA" -> lookup (String.append k "_P") pts' = Some (vneg v))) /\
    (forall k, In k (keys pts') -> In k (keys pts) \/ exists k0, In k0 (keys pts) /\ k0 <> "GAMMA" /\ k = String.append k0 "_P").
Proof.
  intros spglib cell atoms arg cv rel path pts d H D C.
  destruct (path_inv _ _ _ _ _ _ _ _ _ H) as (d' & pts0 & path0 & pc & pa & r & pts1 & inv & D' & T & K & P & R & Q & I & E & CV).
  assert (d' = d) by congruence. subst d'. cbn [negb] in E. rewrite andb_false_r in E. destruct E as (-> & ->).
  assert (RG : (1 <= space_group_number d <= 230)%Z).
  { assert (X : (1 <= space_group_number d <= 230)%Z \/ ~ (1 <= space_group_number d <= 230)%Z) by lia. destruct X as [X|X]; auto.
    apply C41_no_other_groups in X. destruct X as (_ & _ & X). congruence. }
  destruct (C41_tables _ RG) as (f & c & b & _ & _ & I' & _ & _ & B & _). assert (b = inv) by congruence. subst b.
  assert (NI : inv = false) by (destruct inv; auto; exfalso; apply C, B; auto).
  assert (K' := K). apply table_ok_spec in K. destruct K as (l & L & IL & G & ND & HS & NL & path' & X & L').
  exists path', (extend_points pts1), l, (map (map prime) l).
  assert (KQ := place_keys _ _ _ _ _ Q). rewrite <- KQ in ND. destruct (extend_keys pts1 ND) as (EK & EI).
  split; [|split; [auto|split; [auto|split; [|split]]]].
  - revert H. unfold get_path_and_points. rewrite D. cbn [bind].
    destruct (get_conventional _ _ _ _ _) as [[? ?]|]; [|discriminate]. cbn [bind].
    destruct (get_primitive _ _ _ _ _) as [[? ?]|]; [|discriminate]. cbn [bind]. cbv zeta.
    match goal with |- (bind ?x _ = _) -> _ => destruct x as [[? ?]|]; [|discriminate] end. cbn [bind].
    match goal with |- (bind ?x _ = _) -> _ => destruct x as [?|]; [|discriminate] end. cbn [bind].
    match goal with |- (bind ?x _ = _) -> _ => destruct x as [?|]; [|discriminate] end. cbn [bind].
    unfold zgetitem. rewrite I, NI. cbn [bind negb andb]. intros H. injection H as -> ->. rewrite X. reflexivity.
  - clear. induction l as [|s l IH]; cbn; constructor; auto. induction s as [|x s IHs]; cbn; constructor; auto. apply prime_primed.
  - intros k v LK. apply lookup_pair in LK. destruct (EI _ _ LK) as (A1 & A2).
    split; [|intros NG]; apply lookup_nodup; auto; rewrite EK; auto.
  - intros k IK. rewrite EK in IK. unfold with_primes in IK. apply in_app_or in IK. destruct IK as [IK|IK]; auto.
    right. apply in_map_iff in IK. destruct IK as (k0 & <- & IK). unfold others in IK. apply filter_In in IK. destruct IK as (IK & NG).
    exists k0. split; auto. split; auto. intros ->. discriminate.
Qed.
Print Assumptions C43_no_inversion.

(* ================= C45: plot labels ================= *)
(* The points of one crystal have different labels. *)
Theorem C45_labels_identify_points : forall spglib cell atoms arg cv tr rel path pts s1 s2 label,
  get_path_and_points spglib cell atoms arg cv tr rel = Ok (path, pts) ->
  In s1 (keys pts) -> In s2 (keys pts) -> lookup s1 HS_PLOT_NAMES = Some label -> lookup s2 HS_PLOT_NAMES = Some label -> s1 = s2.
Proof.
  intros spglib cell atoms arg cv tr rel path pts s1 s2 label H I1 I2 L1 L2.
  destruct (path_inv _ _ _ _ _ _ _ _ _ H) as (d & pts0 & path0 & pc & pa & r & pts1 & inv & D & T & K & P & R & Q & I & E & CV).
  apply table_ok_spec in K. destruct K as (l & L & IL & G & ND & HS & NL & path' & X & L').
  apply place_keys in Q. rewrite <- Q in *.
  assert (SUB : incl (keys pts) (with_primes (keys pts1))).
  { destruct (negb inv && negb tr); destruct E as (_ & ->).
    - destruct (extend_keys pts1 ND) as (-> & _). apply incl_refl.
    - unfold with_primes. apply incl_appl, incl_refl. }
  apply SUB in I1, I2. assert (EQ : label_of s1 = label_of s2) by (unfold label_of; rewrite L1, L2; auto).
  clear - I1 I2 EQ NL. revert I1 I2 NL. generalize (with_primes (keys pts1)). intros ks. induction ks as [|k ks IH]; [contradiction|].
  cbn [map]. intros [<-|I1] [<-|I2] NL; auto; inversion NL as [|? ? N1 N2]; subst; auto.
  - exfalso. apply N1. rewrite EQ. apply in_map. auto.
  - exfalso. apply N1. rewrite <- EQ. apply in_map. auto.
Qed.
Print Assumptions C45_labels_identify_points.
(* In the table of labels itself exactly two pairs of names share a label. *)
Definition same_label (s1 s2 : string) : Prop := exists label, lookup s1 HS_PLOT_NAMES = Some label /\ lookup s2 HS_PLOT_NAMES = Some label.
Definition shared : list (string * string) := [("F3", "F4"); ("F4", "F3"); ("F3_P", "F4_P"); ("F4_P", "F3_P")].
Lemma shared_ok : forallb (fun s1 => forallb (fun s2 => 
   (implb (String.eqb (label_of s1) (label_of s2)) (String.eqb s1 s2 || existsb (fun p => (String.eqb s1 (fst p) && String.eqb s2 (snd p))%bool) shared))%bool)
   (keys HS_PLOT_NAMES)) (keys HS_PLOT_NAMES) = true.
Proof. vm_compute. reflexivity. Qed.
Theorem C45_only_shared_labels : forall s1 s2, s1 <> s2 -> (same_label s1 s2 <-> In (s1, s2) shared).
Proof.
  intros s1 s2 N. split.
  - intros (label & L1 & L2). assert (I1 : In s1 (keys HS_PLOT_NAMES)) by (apply lookup_in; eauto).
    assert (I2 : In s2 (keys HS_PLOT_NAMES)) by (apply lookup_in; eauto).
    pose proof (proj1 (forallb_forall _ _) (proj1 (forallb_forall _ _) shared_ok _ I1) _ I2) as X. cbv beta in X.
    unfold label_of in X. rewrite L1, L2, String.eqb_refl in X. cbn [implb] in X. apply String.eqb_neq in N. rewrite N in X. cbn [orb] in X.
    apply existsb_exists in X. destruct X as ([a b] & IN & X). cbn [fst snd] in X. apply andb_true_iff in X. destruct X as (A & B).
    apply String.eqb_eq in A, B. subst. auto.
  - intros I. cbn [shared In] in I. destruct I as [I|[I|[I|[I|[]]]]]; injection I as <- <-; eexists; split; reflexivity.
Qed.
Print Assumptions C45_only_shared_labels.
Theorem C45_labels_distinct_refuted : exists s1 s2, s1 <> s2 /\ same_label s1 s2.
Proof. exists "F3", "F4". split; [discriminate|]. apply C45_only_shared_labels; [discriminate|cbn; auto]. Qed.
Print Assumptions C45_labels_distinct_refuted.

(* ================= C53: relative and absolute coordinates ================= *)
Definition on_points (f : vec -> vec) (pts : dict vec) : dict vec := map (fun kv => (fst kv, f (snd kv))) pts.
Lemma lookup_on f pts k : lookup k (on_points f pts) = option_map f (lookup k pts).
Proof. induction pts as [|[k' v] pts IH]; cbn; auto. destruct (String.eqb k k'); auto. Qed.
Lemma set_on f pts k v : on_points f (setitem k v pts) = setitem k (f v) (on_points f pts).
Proof. induction pts as [|[k' v'] pts IH]; cbn; auto. destruct (String.eqb k k'); cbn; auto. f_equal. auto. Qed.
Lemma extend_on f pts : (forall v, f (vneg v) = vneg (f v)) -> extend_points (on_points f pts) = on_points f (extend_points pts).
Proof.
  intros F. unfold extend_points.
  assert (X : forall l acc, fold_left (fun d kv => if String.eqb (fst kv) "GAMMA" then d else setitem (String.append (fst kv) "_P") (vneg (snd kv)) d) (on_points f l) (on_points f acc)
     = on_points f (fold_left (fun d kv => if String.eqb (fst kv) "GAMMA" then d else setitem (String.append (fst kv) "_P") (vneg (snd kv)) d) l acc)).
  { induction l as [|[k v] l IH]; intros acc; cbn [fold_left on_points map fst snd]; auto.
    destruct (String.eqb k "GAMMA"); [apply IH|]. rewrite <- F, <- set_on. apply IH. }
  apply X.
Qed.
Theorem C53_relative_coordinates : forall spglib cell atoms arg cv tr path pts,
  get_path_and_points spglib cell atoms arg cv tr true = Ok (path, pts) ->
  exists r pts', get_reciprocal cell = Ok r /\ get_path_and_points spglib cell atoms arg cv tr false = Ok (path, pts') /\ keys pts' = keys pts /\
    forall k v, lookup k pts = Some v -> lookup k pts' = Some (vmat v r).
Proof.
  intros spglib cell atoms arg cv tr path pts H.
  revert H. unfold get_path_and_points. destruct (obtain_data _ _ _ _) as [d|]; [|discriminate]. cbn [bind].
  destruct (get_conventional _ _ _ _ _) as [[? ?]|]; [|discriminate]. cbn [bind].
  destruct (get_primitive _ _ _ _ _) as [[? ?]|]; [|discriminate]. cbn [bind]. cbv zeta.
  match goal with |- (bind ?x _ = _) -> _ => destruct x as [[pts0 path0]|]; [|discriminate] end. cbn [bind].
  match goal with |- (bind ?x _ = _) -> _ => destruct x as [pr|]; [|discriminate] end. cbn [bind].
  unfold place_points. destruct (get_reciprocal cell) as [r|] eqn:RC; [|discriminate]. cbn [bind].
  destruct (minv r) as [b|] eqn:B; [|discriminate]. cbn [bind].
  apply minv_ok in B. destruct B as (DR & ->).
  match goal with |- context [extend_points ?x] => set (P1 := x) end.
  assert (BACK : map (fun kv : string * vec => (fst kv, vmat (snd kv) pr)) pts0 = on_points (fun v => vmat v r) P1).
  { unfold P1, on_points. rewrite map_map. apply map_ext. intros kv. cbn [fst snd]. f_equal. rewrite !vmat_mmul, minv_l, mmul_id_r by auto. reflexivity. }
  rewrite BACK. clearbody P1. destruct (zgetitem _ _) as [inv|]; [|discriminate]. cbn [bind]. intros H.
  exists r.
  assert (LIN : forall v, vmat (vneg v) r = vneg (vmat v r)) by (intros; apply vmat_neg).
  destruct (negb inv && negb tr).
  - destruct (extend_path path0) as [k|]; [|discriminate]. cbn [bind] in *. injection H as <- <-.
    exists (on_points (fun v => vmat v r) (extend_points P1)). split; auto. rewrite extend_on by auto. split; auto.
    split; [unfold keys, on_points; rewrite map_map; auto|]. intros k0 v L. rewrite lookup_on, L. reflexivity.
  - injection H as <- <-. exists (on_points (fun v => vmat v r) P1). split; auto. split; auto.
    split; [unfold keys, on_points; rewrite map_map; auto|]. intros k0 v L. rewrite lookup_on, L. reflexivity.
Qed.
Print Assumptions C53_relative_coordinates.
Theorem C53_relative_possible : forall spglib cell atoms arg cv trev path pts',
  get_path_and_points spglib cell atoms arg cv trev false = Ok (path, pts') -> det cell <> 0 ->
  exists pts, get_path_and_points spglib cell atoms arg cv trev true = Ok (path, pts).
Proof.
  intros spglib cell atoms arg cv trev path pts' H DC.
  revert H. unfold get_path_and_points. destruct (obtain_data _ _ _ _) as [d|]; [|discriminate]. cbn [bind].
  destruct (get_conventional _ _ _ _ _) as [[? ?]|]; [|discriminate]. cbn [bind].
  destruct (get_primitive _ _ _ _ _) as [[? ?]|]; [|discriminate]. cbn [bind]. cbv zeta.
  match goal with |- (bind ?x _ = _) -> _ => destruct x as [[pts0 path0]|]; [|discriminate] end. cbn [bind].
  match goal with |- (bind ?x _ = _) -> _ => destruct x as [pr|]; [|discriminate] end. cbn [bind].
  unfold place_points. rewrite (get_reciprocal_ok _ DC). cbn [bind].
  assert (DR : exists b, minv (mscale (2 * PI) (tr (minv_total cell))) = Ok b).
  { eexists. apply minv_ok. split; [|reflexivity]. pose proof (reciprocal_det _ _ (get_reciprocal_ok _ DC)) as X. intros Z. rewrite Z, Rmult_0_l in X. pose proof PI_RGT_0 as PP. assert (PI * (PI * PI) > 0) by (apply Rmult_gt_0_compat; [exact PP|apply Rmult_gt_0_compat; exact PP]). lra. }
  destruct DR as (b & DR). rewrite DR. cbn [bind]. destruct (zgetitem _ _) as [inv|]; [|discriminate]. cbn [bind].
  destruct (negb inv && negb trev).
  - destruct (extend_path path0); [|discriminate]. cbn [bind]. intros H. injection H as <- <-. eauto.
  - intros H. injection H as <- <-. eauto.
Qed.
Print Assumptions C53_relative_possible.

(* The convention "spglib", which the documentation of Kpoints.from_crystal lists, is never supported. *)
Theorem C42_spglib_convention_refuted : forall spglib cell atoms arg cv tr rel n path pts k, lower cv = "spglib" ->
  get_path_and_points spglib cell atoms arg cv tr rel <> Ok (path, pts) /\ from_crystal spglib cell atoms cv tr n arg <> Ok k.
Proof.
  intros spglib cell atoms arg cv tr rel n path pts k E.
  assert (X : forall rel p, get_path_and_points spglib cell atoms arg cv tr rel <> Ok p).
  { intros rel0 [p q] H. destruct (path_inv _ _ _ _ _ _ _ _ _ H) as (d & pts0 & path0 & pc & pa & r & pts1 & inv & D & T & K & P & R & Q & I & F & CV).
    rewrite E in CV. cbn in CV. intuition discriminate. }
  split; [apply X|]. unfold from_crystal. intros H. apply bind_ok in H. destruct H as (p & H & _). exact (X _ _ H).
Qed.
Print Assumptions C42_spglib_convention_refuted.

(* ---------- a crystal without inversion (P222), for which all hypotheses hold ---------- *)
Lemma oP_conventional cell cv : In cv ["HPKOT"; "hpkot"] -> det cell <> 0 ->
  get_conventional None cell one_atom cv (Data (data_for cell "o" "P")) = Ok (cell, [("positions", pos_val [vzero]); ("names", PList [PStr "Fe1"]); ("spglib_types", PList [PNpInt 1])]).
Proof.
  intros CV D. unfold get_conventional. rewrite one_atom_obtain. cbn [bind]. unfold conventional_structure. cbv zeta.
  replace (lower cv) with "hpkot" by (destruct CV as [<-|[<-|[]]]; reflexivity).
  cbn [String.eqb Ascii.eqb Bool.eqb orb andb data_for crystal_family bind conventional_cell conventional_positions conventional_types original_types].
  rewrite one_atom_made. reflexivity.
Qed.
Lemma oP_primitive cell : det cell <> 0 -> exists new, get_primitive None cell one_atom "HPKOT" (Data (data_for cell "o" "P")) = Ok (cell, new).
Proof.
  intros D. unfold get_primitive. rewrite one_atom_obtain. cbn [bind]. unfold primitive_structure. cbv zeta.
  change (lower "HPKOT") with "hpkot". change (String.eqb "hpkot" "spglib") with false. change (mem "hpkot" ["hpkot"; "sc"]) with true. cbv iota.
  rewrite oP_conventional by (cbn; auto). cbn [bind].
  change (String.eqb "hpkot" "hpkot") with true. cbv iota.
  change (getitem (String.append (crystal_family (data_for cell "o" "P")) (centring_type (data_for cell "o" "P"))) HPKOT_CONVENTIONAL_TO_PRIMITIVE) with (Ok mid). cbn [bind].
  assert (M : mmul (Base.tr mid) cell = cell) by (replace (Base.tr mid) with mid by reflexivity; apply mmul_id_l). rewrite M.
  match goal with |- context [getitem "positions" ?l] => change (getitem "positions" l) with (Ok (pos_val [vzero])) end. cbn [bind].
  rewrite positions_of_val. cbn [bind]. unfold reexpress. rewrite (proj2 (minv_ok _ _) (conj D eq_refl)). cbn [bind map].
  match goal with |- context [getitem "spglib_types" ?l] => change (getitem "spglib_types" l) with (Ok (PList [PNpInt 1])) end. cbn [bind].
  change (ints (PList [PNpInt 1])) with [1%Z].
  replace (vmat (vmat vzero cell) (minv_total cell)) with (V3 0 0 0) by (rewrite vmat_mmul, minv_r, vmat_id by auto; reflexivity).
  replace (Rabs (det cell / det cell)) with 1 by (replace (det cell / det cell) with 1 by (field; auto); rewrite Rabs_R1; auto).
  unfold get_unique. cbv zeta. cbn [map]. unfold normal_position, vmap. cbn [vx vy vz]. rewrite coord_0, (round_int 1).
  change (symprec (data_for cell "o" "P")) with (/ 100000).
  cbn [forallb]. unfold n_equiv. cbn [filter]. rewrite !same_refl by lra. cbn [length].
  change (Z.of_nat 1 =? 1)%Z with true. change (1 =? 1)%nat with true. cbn [andb negb].
  change (enumerate [V3 0 0 0]) with [(0%nat, V3 0 0 0)].
  cbn [unique_loop filter snd]. cbn [negb unique_loop at_indices map nth_error concat app bind].
  eexists. reflexivity.
Qed.
Example C42_case : forall time_reversal, exists path pts, get_path_and_points None (mk 1 0 0 0 2 0 0 0 3) one_atom (Data (data_for (mk 1 0 0 0 2 0 0 0 3) "o" "P")) "HPKOT" time_reversal true = Ok (path, pts) /\
  ~ in_ranges 16 centrosymmetric.
Proof.
  intros time_reversal. set (c := mk 1 0 0 0 2 0 0 0 3). assert (D : det c <> 0) by (unfold c; vunfold; lra).
  assert (B : big c) by (unfold c, mk; apply big_M3; repeat split; apply norm_big; unfold dot; cbn [vx vy vz]; lra).
  unfold get_path_and_points. rewrite one_atom_obtain. cbn [bind]. rewrite oP_conventional by (cbn; auto). cbn [bind].
  destruct (oP_primitive c D) as (new & P). rewrite P. cbn [bind]. cbv zeta. change (lower "HPKOT") with "hpkot".
  change (String.eqb "hpkot" "sc") with false. change (String.eqb "hpkot" "hpkot") with true. cbv iota.
  assert (S : hpkot_get_extended_bl_symbol None c one_atom (Data (data_for c "o" "P")) = Ok "oP1").
  { unfold hpkot_get_extended_bl_symbol. rewrite one_atom_obtain. reflexivity. }
  rewrite S. cbn [bind]. unfold hpkot_get_points. rewrite (get_params_val _ B). cbn [bind]. cbv zeta.
  cbv [mem existsb String.eqb Ascii.eqb Bool.eqb orb]. unfold hpkot_table_75. cbn [bind].
  cbv [getitem lookup String.eqb Ascii.eqb Bool.eqb HPKOT_DEFAULT_K_PATHS]. cbn [bind].
  rewrite (get_reciprocal_ok _ D). cbn [bind]. unfold place_points. rewrite (get_reciprocal_ok _ D). cbn [bind].
  assert (DR : exists b, minv (mscale (2 * PI) (Base.tr (minv_total c))) = Ok b).
  { eexists. apply minv_ok. split; [|reflexivity]. pose proof (reciprocal_det _ _ (get_reciprocal_ok _ D)) as X. intros Z. rewrite Z, Rmult_0_l in X.
    pose proof PI_RGT_0 as PP. assert (PI * (PI * PI) > 0) by (apply Rmult_gt_0_compat; [exact PP|apply Rmult_gt_0_compat; exact PP]). lra. }
  destruct DR as (b & DR). rewrite DR. cbn [bind]. change (zgetitem (space_group_number (data_for c "o" "P")) INVERSION_SYMMETRY) with (Ok false). cbn [bind negb andb].
  assert (NI : ~ in_ranges 16 centrosymmetric) by (intros I; apply in_ranges_iff in I; cbv in I; discriminate).
  destruct time_reversal; cbn [negb andb bind].
  - do 2 eexists. split; [reflexivity|exact NI].
  - match goal with |- context [extend_path ?p] => let x := eval vm_compute in (extend_path p) in change (extend_path p) with x end. cbn [bind].
    do 2 eexists. split; [reflexivity|exact NI].
Qed.
