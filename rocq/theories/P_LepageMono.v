(* P_LepageMono.v : property C76, which lattices lepage calls MCL, MCLC and TRI *)
From Verif Require Import Base M_Strings M_Numerical M_Geometry F_Geometry M_Cell M_Niggli S_Niggli F_Niggli
  M_Voronoi F_Voronoi M_ScExamples M_Lepage F_Lepage F_LepageEx P_Lepage F_Bravais F_Angles F_Classify P_Bravais P_Orientation F_NiggliUnique P_Minima
  F_Mono F_Axes F_AxesData F_AxesTable F_AxesReal F_AxesKinds F_AxesExcl F_MonoKinds P_LepageKind.
Open Scope R_scope.
Notation metric := F_Bravais.metric.

(* ---------------- specification ---------------- *)
(* q (specification two_fold of C75) is the only rotation by 180 degrees that leaves the lattice as it is *)
Definition lone (cell q : mat) : Prop := two_fold cell q /\ forall q', two_fold cell q' -> q' = q.
(* the lattice is primitive monoclinic: the middle between any lattice point and its image is a lattice point *)
Definition layered (cell q : mat) : Prop := forall v, in_lattice cell v -> in_lattice cell (vscale (1 / 2) (vadd v (vmat v q))).
(* two vectors of the plane perpendicular to the axis, not parallel, are sums of the vectors of the cell with
   coefficients -1, 0 and 1 *)
Definition small (i : zvec) : Prop := (Z.abs (zx i) <= 1 /\ Z.abs (zy i) <= 1 /\ Z.abs (zz i) <= 1)%Z.
Definition visible (d q : mat) : Prop := exists i j, small i /\ small j /\
  vmat (vmat (ofZv i) d) q = vscale (- (1)) (vmat (ofZv i) d) /\ vmat (vmat (ofZv j) d) q = vscale (- (1)) (vmat (ofZv j) d) /\
  cross (vmat (ofZv i) d) (vmat (ofZv j) d) <> vzero.

(* ---------------- lemmas ---------------- *)
Lemma same_layered c d q : same_lattice c d -> layered c q -> layered d q.
Proof. intros S L v V. apply S, L, S, V. Qed.
Lemma same_lone c d q : same_lattice c d -> lone c q -> lone d q.
Proof.
  intros S (Q & U). split; [apply (same_two_fold c); auto|]. intros q' Q'. apply U. apply (same_two_fold d); auto. apply same_sym, S.
Qed.
Lemma vmat_back d v : det d <> 0 -> vmat (vmat v d) (minv_total d) = v.
Proof. intros D. rewrite vmat_mmul, (minv_r d D). apply vmat_id. Qed.
Lemma vmat_inj d u v : det d <> 0 -> vmat u d = vmat v d -> u = v.
Proof. intros D E. rewrite <- (vmat_back d u D), <- (vmat_back d v D), E. reflexivity. Qed.

Section OneAxis.
  Variables (d q : mat) (w : zmat) (U h : zvec).
  Hypothesis D : det d <> 0.
  Hypothesis E : mmul d q = mmul (ofZ w) d.
  Hypothesis W : In w twos.
  Hypothesis S : Sym d w.
  Hypothesis P : pair_of w = Some (U, h).
  Lemma image i : vmat (vmat i d) q = vmat (vmat i (ofZ w)) d.
  Proof. rewrite vmat_mmul, E, <- vmat_mmul. reflexivity. Qed.
  Lemma layered_ones : layered d q <-> ones w = true.
  Proof.
    rewrite ones_true. split.
    - intros L. assert (G : forall n, exists m, zadd n (zvmat n w) = zadd m m).
      { intros n. destruct (L (vmat (ofZv n) d) (ex_intro _ n eq_refl)) as (m & M). exists m. rewrite image in M.
        assert (K : vadd (ofZv n) (vmat (ofZv n) (ofZ w)) = vadd (ofZv m) (ofZv m)).
        { apply (vmat_inj d); auto. transitivity (vscale 2 (vmat (ofZv m) d)); [|generalize (ofZv m); destruct d as [[] [] []]; intros []; vunfold; vcomp; ring].
          rewrite <- M. generalize (ofZv n) (vmat (ofZv n) (ofZ w)). destruct d as [[] [] []]. intros [] []. vunfold. vcomp; field. }
        rewrite <- ofZv_mat in K. revert K. generalize (zvmat n w). intros z K. unfold ofZv in K. vunfold. injection K as A B C.
        rewrite <- !plus_IZR in A, B, C. apply eq_IZR in A, B, C. unfold zadd. f_equal; assumption. }
      destruct (G (Zv 1 0 0)) as (a & A). destruct (G (Zv 0 1 0)) as (b & B). destruct (G (Zv 0 0 1)) as (c & C). clear - A B C.
      exists (Zm (zx a - 1) (zy a) (zz a) (zx b) (zy b - 1) (zz b) (zx c) (zy c) (zz c - 1)).
      destruct w, a, b, c. unfold zadd, zvmat, zplus, Base.zid in *. cbn [Base.zx Base.zy Base.zz Base.z11 Base.z12 Base.z13 Base.z21 Base.z22 Base.z23 Base.z31 Base.z32 Base.z33] in *.
      pose proof (f_equal Base.zx A) as A1. pose proof (f_equal Base.zy A) as A2. pose proof (f_equal Base.zz A) as A3.
      pose proof (f_equal Base.zx B) as B1. pose proof (f_equal Base.zy B) as B2. pose proof (f_equal Base.zz B) as B3.
      pose proof (f_equal Base.zx C) as C1. pose proof (f_equal Base.zy C) as C2. pose proof (f_equal Base.zz C) as C3.
      cbn [Base.zx Base.zy Base.zz] in *. clear A B C. f_equal; lia.
    - intros (m & M) v (n & ->). exists (zadd n (zvmat n m)). rewrite image. rewrite M.
      assert (K : vadd (ofZv n) (vmat (ofZv n) (ofZ (zplus Base.zid (zplus m m)))) = vscale 2 (ofZv (zadd n (zvmat n m)))).
      { rewrite <- ofZv_mat. destruct m, n. unfold zadd, zvmat, zplus, Base.zid, ofZv. cbn [Base.zx Base.zy Base.zz Base.z11 Base.z12 Base.z13 Base.z21 Base.z22 Base.z23 Base.z31 Base.z32 Base.z33].
        vunfold. rewrite !plus_IZR, !mult_IZR, !plus_IZR. vcomp; ring. }
      transitivity (vscale (1 / 2) (vmat (vadd (ofZv n) (vmat (ofZv n) (ofZ (zplus Base.zid (zplus m m))))) d)).
      + generalize (ofZv n) (vmat (ofZv n) (ofZ (zplus Base.zid (zplus m m)))). destruct d as [[] [] []]. intros [] []. vunfold. vcomp; ring.
      + rewrite K. generalize (ofZv (zadd n (zvmat n m))). destruct d as [[] [] []]. intros []. vunfold. vcomp; field.
  Qed.
  Lemma pair_even : zeven (U, h) = true.
  Proof. destruct (find_pair w U h P) as (_ & G & _). apply good_even, G. Qed.
  Lemma in_flat i : In i (flat h) <-> i <> Zv 0 0 0 /\ small i /\ vmat (vmat (ofZv i) d) q = vscale (- (1)) (vmat (ofZv i) d).
  Proof.
    pose proof pair_even as EV. destruct (even_sgn U h EV) as (S1 & S2). destruct (find_pair w U h P) as (_ & _ & EW).
    unfold flat. rewrite filter_In, in_miller, andb_true_iff, negb_true_iff, Z.eqb_eq by lia. rewrite image, <- EW, wmat_vmat.
    assert (K : vmat (vsub (vscale (IZR (zsgn (U, h)) * dot (ofZv i) (ofZv h)) (ofZv U)) (ofZv i)) d = vscale (- (1)) (vmat (ofZv i) d) <-> zdot i h = 0%Z).
    { rewrite ofZv_dot. split.
      - intros K. assert (K' : vsub (vscale (IZR (zsgn (U, h)) * IZR (zdot i h)) (ofZv U)) (ofZv i) = vscale (- (1)) (ofZv i)).
        { apply (vmat_inj d); auto. rewrite K. generalize (ofZv i). destruct d as [[] [] []]. intros []. vunfold. vcomp; ring. }
        assert (Z : vscale (IZR (zsgn (U, h) * zdot i h)) (ofZv U) = V3 0 0 0).
        { rewrite mult_IZR. revert K'. generalize (IZR (zsgn (U, h)) * IZR (zdot i h)) (ofZv U) (ofZv i). intros x [] [] K'. vunfold. injection K' as A B C. vcomp; lra. }
        apply (f_equal (fun v => dot v (ofZv h))) in Z. assert (Z' : IZR (zsgn (U, h) * zdot i h) * dot (ofZv U) (ofZv h) = 0).
        { revert Z. generalize (IZR (zsgn (U, h) * zdot i h)) (ofZv U) (ofZv h). intros x [] [] Z. vunfold. lra. }
        rewrite ofZv_dot, <- mult_IZR in Z'. apply eq_IZR in Z'. nia.
      - intros ->. rewrite Rmult_0_r. generalize (ofZv i) (ofZv U). destruct d as [[] [] []]. intros [] []. vunfold. vcomp; ring. }
    rewrite K. unfold small. split.
    - intros (M & N & Z). split; [|split; [lia|exact Z]]. intros ->. discriminate N.
    - intros (N & M & Z). split; [lia|]. split; [|exact Z]. apply not_true_is_false. rewrite zvec_eqb_true. exact N.
  Qed.
  Lemma visible_half tol : 0 < tol -> 2 * tol <= sq d U -> (visible d q <-> (2 <= length (half h))%nat).
  Proof.
    intros T B. split.
    - intros (i & j & Mi & Mj & Ei & Ej & X). destruct (le_lt_dec 2 (length (half h))) as [|L]; auto. exfalso. apply X.
      assert (N : forall k, small k -> vmat (vmat (ofZv k) d) q = vscale (- (1)) (vmat (ofZv k) d) -> k = Zv 0 0 0 \/ In k (flat h)).
      { intros k Mk Ek. destruct (zvec_eqb k (Zv 0 0 0)) eqn:Z; [left; apply zvec_eqb_true, Z|right]. apply in_flat. split; auto.
        intros ->. discriminate Z. }
      destruct (mono_w_parts w U h W P) as (K & _).
      assert (C : exists a, forall k, small k -> vmat (vmat (ofZv k) d) q = vscale (- (1)) (vmat (ofZv k) d) -> exists x, ofZv k = vscale x (ofZv a)).
      { revert K L N. generalize (flat h) (half h). intros f l K L N. exists (nth 0 l (Zv 0 0 0)). intros k Mk Ek. destruct (N k Mk Ek) as [->|I].
        - exists 0. unfold ofZv. vunfold. cbn [Base.zx Base.zy Base.zz]. vcomp; ring.
        - destruct (idx_known l k (K k I)) as (Lt & Q). replace (idx l k) with 0%nat in Q by lia. destruct Q as [->|Q].
          + exists 1. generalize (ofZv k). intros []. vunfold. vcomp; ring.
          + exists (- (1)). rewrite <- Q. generalize (nth 0 l (Zv 0 0 0)). intros []. unfold zneg, ofZv. cbn [Base.zx Base.zy Base.zz]. rewrite !opp_IZR. vunfold. vcomp; ring. }
      destruct C as (a & C). destruct (C i Mi Ei) as (x & ->), (C j Mj Ej) as (y & ->). generalize (ofZv a). destruct d as [[] [] []]. intros []. vunfold. vcomp; ring.
    - intros L. destruct (axis_shortest d w U h tol D W S P T B) as (A & _). destruct (A L) as (i & j & Ii & Ij & _ & Dt).
      apply in_flat in Ii, Ij. destruct Ii as (_ & Mi & Ei), Ij as (_ & Mj & Ej). exists i, j. do 4 (split; [assumption|]). intros X.
      assert (Z : dot (vmat (ofZv U) d) (cross (vmat (ofZv i) d) (vmat (ofZv j) d)) = - (det d * IZR (zdet3 i U j))).
      { destruct i, j, U. unfold ofZv, zdet3. cbn [Base.zx Base.zy Base.zz]. rewrite ?plus_IZR, ?minus_IZR, ?mult_IZR, ?minus_IZR, ?mult_IZR. destruct d as [[] [] []]. vunfold. ring. }
      rewrite X in Z. assert (Z' : det d * IZR (zdet3 i U j) = 0) by (revert Z; generalize (vmat (ofZv U) d); intros []; vunfold; lra).
      apply Rmult_integral in Z'. destruct Z' as [Z'|Z']; [tauto|]. apply eq_IZR in Z'. rewrite Z' in Dt. unfold expected in Dt. destruct (ones w); discriminate.
  Qed.
End OneAxis.
Lemma pair_exists w : In w twos -> exists U h, pair_of w = Some (U, h).
Proof.
  intros W. pose proof (proj1 (all_true _ _) all_mono w W) as A. cbv beta in A. destruct (pair_of w) as [[U h]|]; [exists U, h; reflexivity|discriminate A].
Qed.
Lemma ones_half w U h : In w twos -> pair_of w = Some (U, h) -> ones w = true -> (2 <= length (half h))%nat.
Proof.
  intros W P O. pose proof (proj1 (all_true _ _) ones_wide w W) as A. cbv beta in A. rewrite O in A. rewrite P in A. unfold wide in A. apply Nat.leb_le, A.
Qed.
Lemma axis_long d U h : det d <> 0 -> niggli_reduced d -> zeven (U, h) = true -> dot (row1 d) (row1 d) <= sq d U.
Proof.
  intros D N E. assert (Z : U <> Zv 0 0 0) by (intros ->; unfold zeven in E; cbn in E; discriminate).
  destruct (C72_shortest_vectors d D N (vmat (ofZv U) d) vzero vzero) as (A & _); try (exists (Zv 0 0 0); unfold ofZv; destruct d as [[] [] []]; vunfold; cbn [Base.zx Base.zy Base.zz]; vcomp; ring).
  - exists U. reflexivity.
  - assert (K : vmat (ofZv U) d <> vzero).
    { intros K. pose proof (sq_pos d D U Z) as Q. unfold sq in Q. rewrite K in Q. revert Q. vunfold. lra. }
    specialize (A K). unfold norm in A. unfold sq. apply sqrt_le_0; auto; [generalize (row1 d)|generalize (vmat (ofZv U) d)]; intros []; vunfold; nra.
Qed.
Lemma us_exact A : (forall w, In w A -> In w twos) -> zdedup (exact_us (par A)) = us_of A.
Proof. intros ET. unfold us_of. rewrite exact_us_good by exact ET. reflexivity. Qed.
Lemma lone_answer d e w U h spglib given tol nn limit : det d <> 0 -> niggli_reduced d -> In e entries ->
  (forall w, In w (e_set e) -> Sym d w) -> (forall w, is_two w = true -> Sym d w -> In w (e_set e)) -> e_set e = [w] -> pair_of w = Some (U, h) ->
  lepage_cell spglib given nn = Ok d -> 0 < limit -> clear_cut d limit -> 0 < Rabs tol -> 2 * Rabs tol <= sq d U ->
  lepage spglib given tol nn limit = Ok (if le_lt_dec 2 (length (half h)) then if ones w then "MCL" else "MCLC" else "TRI")%string.
Proof.
  intros D N I S1 S2 ES P C L CC T B. destruct (recip_exists d D) as (r & R).
  assert (ET : forall v, In v (e_set e) -> In v twos) by (apply entry_twos; auto).
  pose proof (entry_isolated d e S1 S2 r limit R CC) as IS. rewrite ES in *.
  assert (W : In w twos) by (apply ET; left; auto). destruct (find_pair w U h P) as (EU & _ & _).
  rewrite (run_exact spglib given d r tol nn limit (par [w]) [U] C R L IS).
  2:{ rewrite (us_exact _ ET). exact EU. }
  cbn [map]. unfold classify.
  replace (check_cub (angles_of [exact_axis d U]) [exact_axis d U] (Rabs tol)) with (@Ok (option string) None) by reflexivity.
  replace (check_hex (angles_of [exact_axis d U]) (Rabs tol)) with (@Ok (option string) None) by reflexivity.
  replace (check_tet (angles_of [exact_axis d U]) [exact_axis d U] (Rabs tol) d) with (@Ok (option string) None) by reflexivity.
  replace (check_rhl (angles_of [exact_axis d U]) (Rabs tol)) with (@Ok (option string) None) by reflexivity.
  replace (check_orc (angles_of [exact_axis d U]) [exact_axis d U] (Rabs tol)) with (@Ok (option string) None) by reflexivity.
  cbn [or_else]. unfold check_mcl. change (ax_U (exact_axis d U)) with U.
  destruct (axis_shortest d w U h (Rabs tol) D W (S1 w (or_introl eq_refl)) P T B) as (A1 & A2).
  destruct (le_lt_dec 2 (length (half h))) as [X|X].
  - destruct (A1 X) as (a & c & _ & _ & G & Dt). rewrite G. cbv zeta. rewrite Dt. unfold expected. destruct (ones w); reflexivity.
  - rewrite A2 by lia. reflexivity.
Qed.
(* the three cases *)
Lemma few_cases spglib given d tol nn limit :
  det given <> 0 -> lepage_cell spglib given nn = Ok d -> same_lattice d given -> niggli_reduced d ->
  0 < limit -> clear_cut d limit -> 0 < Rabs tol <= 1 -> 2 * Rabs tol <= dot (row1 d) (row1 d) ->
  (exists name, lepage spglib given tol nn limit = Ok name /\ ~ In name ["MCL"; "MCLC"; "TRI"]%string /\ forall q, ~ lone given q) \/
  (lepage spglib given tol nn limit = Ok "TRI"%string /\ forall q, ~ two_fold given q) \/
  exists q, lone given q /\ (layered given q \/ ~ layered given q) /\ (visible d q \/ ~ visible d q) /\ (layered given q -> visible d q) /\
    (layered given q -> lepage spglib given tol nn limit = Ok "MCL"%string) /\
    (~ layered given q -> visible d q -> lepage spglib given tol nn limit = Ok "MCLC"%string) /\
    (~ visible d q -> lepage spglib given tol nn limit = Ok "TRI"%string).
Proof.
  intros Dg C SD N L CC T B. assert (D : det d <> 0) by (apply (same_det given); auto).
  destruct (two_fold_cases d D N) as (e & I & S1 & S2 & [(LE & q1 & q2 & Q1 & Q2 & NQ)|(LE & U)]).
  - left. assert (G1 : two_fold given q1) by (apply (same_two_fold d); auto). assert (G2 : two_fold given q2) by (apply (same_two_fold d); auto).
    destruct (C75_many spglib given d tol nn limit) as (name & m & o & A & ST & _); auto; [exists q1, q2; auto|].
    exists name. split; auto. split; [apply (standard_names name m ST)|]. intros q (_ & Uq). apply NQ. rewrite (Uq q1 G1), (Uq q2 G2). reflexivity.
  - right. assert (ET : forall v, In v (e_set e) -> In v twos) by (apply entry_twos; auto). destruct (e_set e) as [|w [|v l]] eqn:ES; [left|right|cbn in LE; lia].
    + assert (NT : forall q, ~ two_fold given q).
      { intros q Q. apply (same_two_fold given d) in Q; [|apply same_sym; auto]. destruct (two_fold_matrix d q D Q) as (w & _ & W & S). destruct (S2 w W S). }
      split; auto. destruct (recip_exists d D) as (r & R). apply (no_axis_run spglib given d r tol nn limit C R L). intros V k HV Hk E.
      destruct (clear_cut_delta d r limit R CC V k HV Hk E) as [Z|Z]; auto. exfalso.
      apply (delta_zero_iff d r V k (reciprocal_dual _ _ R) E) in Z. apply (twofold_sym d V k E) in Z. destruct (S2 _ (wmat_two _ E) Z).
    + assert (W : In w twos) by (apply ET; left; auto). assert (SW : Sym d w) by (apply S1; left; auto).
      destruct (matrix_two_fold d w D W SW) as (q & E & Q). exists q. destruct (pair_exists w W) as (V & h & P).
      assert (LD : layered given q <-> ones w = true).
      { rewrite <- (layered_ones d q w D E SW). split; [apply (same_layered given d), same_sym, SD|apply (same_layered d given), SD]. }
      pose proof (axis_long d V h D N (pair_even w V h P)) as AL. assert (TB : 2 * Rabs tol <= sq d V) by lra.
      pose proof (visible_half d q w V h D E W SW P (Rabs tol) ltac:(lra) TB) as VH.
      pose proof (ones_half w V h W P) as OH.
      assert (S1' : forall v, In v (e_set e) -> Sym d v) by (rewrite ES; exact S1).
      assert (S2' : forall v, is_two v = true -> Sym d v -> In v (e_set e)) by (rewrite ES; exact S2).
      pose proof (lone_answer d e w V h spglib given tol nn limit D N I S1' S2' ES P C L CC ltac:(lra) TB) as A.
      split.
      { split; [apply (same_two_fold d); auto|]. intros q' Q'. apply U; auto. apply (same_two_fold given); auto. apply same_sym, SD. }
      split; [destruct (ones w); [left|right]; rewrite LD; auto; discriminate|].
      split; [destruct (le_lt_dec 2 (length (half h))); [left|right]; rewrite VH; auto; lia|].
      rewrite A, LD, VH. destruct (le_lt_dec 2 (length (half h))) as [X|X].
      * split; [auto|]. split; [intros ->; reflexivity|]. split; [intros O _; destruct (ones w); [congruence|reflexivity]|]. lia.
      * split; [intros O; apply OH, O|]. split; [intros O; specialize (OH O); lia|]. split; [lia|reflexivity].
Qed.

(* ---------------- what is proved ---------------- *)
(* d is the cell that lepage examines, as in C75: a Niggli cell of the given lattice.  The tolerance has to be small
   against the square of the shortest lattice vector: the code compares it with products of lattice vectors. *)
Theorem C76_MCL : forall spglib given d angle_tolerance no_niggli limit,
  det given <> 0 -> lepage_cell spglib given no_niggli = Ok d -> same_lattice d given -> niggli_reduced d ->
  0 < limit -> clear_cut d limit -> 0 < Rabs angle_tolerance <= 1 -> 2 * Rabs angle_tolerance <= dot (row1 d) (row1 d) ->
  (lepage spglib given angle_tolerance no_niggli limit = Ok "MCL"%string <-> exists q, lone given q /\ layered given q).
Proof.
  intros sp g d tol nn lim D C S N L CC T B. destruct (few_cases sp g d tol nn lim D C S N L CC T B) as [(n & A & I & NL)|[(A & NT)|(q & Q & X & Y & H1 & H2 & H3 & H4)]].
  - rewrite A. split; [intros E; injection E as ->; destruct I; cbn; auto|intros (q & Q & _); destruct (NL q Q)].
  - rewrite A. split; [discriminate|]. intros (q & (Q & _) & _). destruct (NT q Q).
  - split.
    + intros E. exists q. split; auto. destruct X as [X|X]; auto. destruct Y as [Y|Y]; [rewrite (H3 X Y) in E|rewrite (H4 Y) in E]; discriminate.
    + intros (q' & Q' & L'). apply H2. destruct Q' as (Q' & _), Q as (_ & U). rewrite <- (U q' Q'). exact L'.
Qed.
Print Assumptions C76_MCL.
(* Not every base-centred monoclinic lattice is called MCLC. *)
Theorem C76_MCLC : forall spglib given d angle_tolerance no_niggli limit,
  det given <> 0 -> lepage_cell spglib given no_niggli = Ok d -> same_lattice d given -> niggli_reduced d ->
  0 < limit -> clear_cut d limit -> 0 < Rabs angle_tolerance <= 1 -> 2 * Rabs angle_tolerance <= dot (row1 d) (row1 d) ->
  (lepage spglib given angle_tolerance no_niggli limit = Ok "MCLC"%string <-> exists q, lone given q /\ ~ layered given q /\ visible d q).
Proof.
  intros sp g d tol nn lim D C S N L CC T B. destruct (few_cases sp g d tol nn lim D C S N L CC T B) as [(n & A & I & NL)|[(A & NT)|(q & Q & X & Y & H1 & H2 & H3 & H4)]].
  - rewrite A. split; [intros E; injection E as ->; destruct I; cbn; auto|intros (q & Q & _); destruct (NL q Q)].
  - rewrite A. split; [discriminate|]. intros (q & (Q & _) & _). destruct (NT q Q).
  - split.
    + intros E. exists q. split; auto. destruct X as [X|X]; [rewrite (H2 X) in E; discriminate|]. destruct Y as [Y|Y]; [auto|rewrite (H4 Y) in E; discriminate].
    + intros (q' & Q' & L' & V'). destruct Q' as (Q' & _), Q as (_ & U). rewrite (U q' Q') in *. apply H3; auto.
Qed.
Print Assumptions C76_MCLC.
Theorem C76_TRI : forall spglib given d angle_tolerance no_niggli limit,
  det given <> 0 -> lepage_cell spglib given no_niggli = Ok d -> same_lattice d given -> niggli_reduced d ->
  0 < limit -> clear_cut d limit -> 0 < Rabs angle_tolerance <= 1 -> 2 * Rabs angle_tolerance <= dot (row1 d) (row1 d) ->
  (lepage spglib given angle_tolerance no_niggli limit = Ok "TRI"%string <->
   (forall q, ~ two_fold given q) \/ exists q, lone given q /\ ~ layered given q /\ ~ visible d q).
Proof.
  intros sp g d tol nn lim D C S N L CC T B. destruct (few_cases sp g d tol nn lim D C S N L CC T B) as [(n & A & I & NL)|[(A & NT)|(q & Q & X & Y & H1 & H2 & H3 & H4)]].
  - rewrite A. split; [intros E; injection E as ->; destruct I; cbn; auto|]. intros [NT|(q & Q & _)]; [|destruct (NL q Q)]. exfalso.
    pose proof (C75_few sp g d tol nn lim D C S N L CC) as F. rewrite A in F.
    assert (IN : In (@Ok string n) [Ok "MCL"%string; Ok "MCLC"%string; Ok "TRI"%string]).
    { apply F. intros q1 q2 Q1 _. destruct (NT q1 Q1). }
    destruct IN as [E|[E|[E|[]]]]; injection E as <-; apply I; cbn; auto.
  - rewrite A. split; auto.
  - split.
    + intros E. right. exists q. split; auto. destruct Y as [Y|Y]; [|split; auto].
      exfalso. destruct X as [X|X]; [rewrite (H2 X) in E|rewrite (H3 X Y) in E]; discriminate.
    + intros [NT|(q' & Q' & L' & V')]; [destruct (NT q (proj1 Q))|]. destruct Q' as (Q' & _), Q as (_ & U). rewrite (U q' Q') in *. apply H4; auto.
Qed.
Print Assumptions C76_TRI.

(* ---------------- lattices that are missed ---------------- *)
Definition alone (G w : zmat) : bool := all (fun v => if zeqb (zmul (zmul v G) (ztr v)) G then zeqb v w else true) twos.
Lemma alone_lone g w q : det (ofZ g) <> 0 -> niggli_reduced (ofZ g) -> two_fold (ofZ g) q -> mmul (ofZ g) q = mmul (ofZ w) (ofZ g) ->
  alone (zmul g (ztr g)) w = true -> lone (ofZ g) q.
Proof.
  intros D N Q E A. split; auto. intros q' Q'. destruct (two_fold_matrix _ q' D Q') as (v & E' & T & S). unfold alone in A. 
  assert (V : In v twos) by (apply in_twos; auto; apply (Sym_small (ofZ g)); auto). pose proof (proj1 (all_true _ _) A v V) as Z. cbv beta in Z.
  assert (M : metric (ofZ g) = ofZ (zmul g (ztr g))) by (unfold F_Bravais.metric; rewrite ofZ_mul; f_equal; destruct g; reflexivity).
  unfold Sym in S. rewrite M in S. replace (tr (ofZ v)) with (ofZ (ztr v)) in S by (destruct v; reflexivity). rewrite <- !ofZ_mul in S. apply ofZ_inj in S.
  rewrite (proj2 (zeqb_true _ _) S) in Z. apply zeqb_true in Z. subst v.
  rewrite <- (mmul_id_l q'), <- (mmul_id_l q), <- (minv_l _ D), !mmul_assoc, E, E'. reflexivity.
Qed.
Definition missed_cell : zmat := Zm 2 0 0 (-1) 3 0 0 (-1) 4.
Definition half_turn : mat := mk 1 0 0 0 (-1) 0 0 0 (-1).
Lemma half_turn_two g w : mmul (ofZ g) half_turn = mmul (ofZ w) (ofZ g) -> unimodular w -> two_fold (ofZ g) half_turn.
Proof.
  intros E U. unfold two_fold, half_turn, orthogonal. split; [vunfold; vcomp; ring|]. split; [vunfold; ring|]. split; [vunfold; vcomp; ring|].
  split; [vunfold; intros X; injection X; intros; lra|]. fold half_turn. rewrite E. apply unimodular_same_lattice, U.
Qed.
Ltac niggli_ex := unfold niggli_reduced, cell_params, ofZ; vunfold; split; unfold near; cbn [nA nB nC nxi neta nzeta];
  try (left; lra); try lra; try (intros; unfold Rabs in *; repeat destruct Rcase_abs; lra).
Ltac cut_ex := apply separated_clear_cut; [unfold ofZ; vunfold; lra|vm_compute; reflexivity].
(* The lattice of the vectors (2, 0, 0), (-1, 3, 0), (0, -1, 4): a Niggli cell, one rotation by 180 degrees (about the
   first vector), the middle between the second vector and its image is (-1, 0, 0), which is not a lattice vector.
   Perpendicular to the axis are (0, -1, 4) and a1 + 2 a2 = (0, 6, 0); the code looks at coefficients up to 1 only. *)
Theorem C76_base_centred_refuted : exists cell q,
  det cell <> 0 /\ niggli_reduced cell /\ clear_cut cell 2 /\ lone cell q /\ ~ layered cell q /\
  forall spglib angle_tolerance, 0 < Rabs angle_tolerance <= 1 -> lepage spglib cell angle_tolerance true 2 = Ok "TRI"%string.
Proof.
  set (g := missed_cell). set (w := Zm 1 0 0 (-1) (-1) 0 0 0 (-1)). exists (ofZ g), half_turn.
  assert (D : det (ofZ g) <> 0) by (unfold g, missed_cell, ofZ; vunfold; lra).
  assert (N : niggli_reduced (ofZ g)) by (unfold g, missed_cell; niggli_ex).
  assert (CC : clear_cut (ofZ g) 2) by (unfold g, missed_cell; cut_ex).
  assert (E : mmul (ofZ g) half_turn = mmul (ofZ w) (ofZ g)) by (unfold g, missed_cell, w, half_turn, ofZ; vunfold; vcomp; ring).
  assert (Q : two_fold (ofZ g) half_turn) by (apply (half_turn_two g w E); left; reflexivity).
  assert (L : lone (ofZ g) half_turn) by (apply (alone_lone g w half_turn D N Q E); vm_compute; reflexivity).
  assert (W : In w twos) by (apply zmem_true; vm_compute; reflexivity).
  assert (S : Sym (ofZ g) w) by (unfold Sym, F_Bravais.metric, g, missed_cell, w, ofZ; vunfold; vcomp; ring).
  assert (NL : ~ layered (ofZ g) half_turn) by (rewrite (layered_ones (ofZ g) half_turn w D E S); vm_compute; discriminate).
  assert (P : exists h, pair_of w = Some (Zv 1 0 0, h) /\ length (half h) = 1%nat) by (exists (Zv (-2) 1 0); split; vm_compute; reflexivity).
  destruct P as (h & P & H).
  assert (NV : ~ visible (ofZ g) half_turn).
  { rewrite (visible_half (ofZ g) half_turn w (Zv 1 0 0) h D E W S P 1); [lia|lra|]. unfold sq, g, missed_cell, ofZ, ofZv. cbn [Base.zx Base.zy Base.zz]. vunfold. lra. }
  do 5 (split; [assumption|]). intros sp tol T. apply (C76_TRI sp (ofZ g) (ofZ g)); auto; try lra.
  - split; auto.
  - unfold g, missed_cell, ofZ. vunfold. lra.
  - right. exists half_turn. auto.
Qed.
Print Assumptions C76_base_centred_refuted.

(* The three answers occur. *)
Example C76_case :
  lepage None (ofZ (Zm 2 0 0 0 3 0 0 (-1) 4)) (1 / 10000) true 2 = Ok "MCL"%string /\
  lepage None (ofZ (Zm 2 2 0 (-2) 2 0 0 (-1) 3)) (1 / 10000) true 2 = Ok "MCLC"%string /\
  lepage None (ofZ (Zm 3 0 0 (-1) 4 0 (-1) (-1) 5)) (1 / 10000) true 2 = Ok "TRI"%string.
Proof.
  assert (T : 0 < Rabs (1 / 10000) <= 1) by (rewrite Rabs_right; lra). assert (T' : 2 * Rabs (1 / 10000) <= 1) by (rewrite Rabs_right; lra).
  split; [|split].
  - set (g := Zm 2 0 0 0 3 0 0 (-1) 4). set (w := Zm 1 0 0 0 (-1) 0 0 0 (-1)).
    assert (D : det (ofZ g) <> 0) by (unfold g, ofZ; vunfold; lra). assert (N : niggli_reduced (ofZ g)) by (unfold g; niggli_ex).
    assert (E : mmul (ofZ g) half_turn = mmul (ofZ w) (ofZ g)) by (unfold g, w, half_turn, ofZ; vunfold; vcomp; ring).
    assert (S : Sym (ofZ g) w) by (unfold Sym, F_Bravais.metric, g, w, ofZ; vunfold; vcomp; ring).
    apply (C76_MCL None (ofZ g) (ofZ g)); auto; try lra; [split; auto|unfold g; cut_ex|unfold g, ofZ; vunfold; lra|].
    exists half_turn. split; [apply (alone_lone g w half_turn D N); [apply (half_turn_two g w E); (left + right); reflexivity|exact E|vm_compute; reflexivity]|].
    apply (layered_ones (ofZ g) half_turn w D E S). vm_compute. reflexivity.
  - set (g := Zm 2 2 0 (-2) 2 0 0 (-1) 3). set (w := Zm 0 (-1) 0 (-1) 0 0 0 0 (-1)).
    assert (D : det (ofZ g) <> 0) by (unfold g, ofZ; vunfold; lra). assert (N : niggli_reduced (ofZ g)) by (unfold g; niggli_ex).
    assert (E : mmul (ofZ g) half_turn = mmul (ofZ w) (ofZ g)) by (unfold g, w, half_turn, ofZ; vunfold; vcomp; ring).
    assert (S : Sym (ofZ g) w) by (unfold Sym, F_Bravais.metric, g, w, ofZ; vunfold; vcomp; ring).
    apply (C76_MCLC None (ofZ g) (ofZ g)); auto; try lra; [split; auto|unfold g; cut_ex|unfold g, ofZ; vunfold; lra|].
    exists half_turn. split; [apply (alone_lone g w half_turn D N); [apply (half_turn_two g w E); (left + right); reflexivity|exact E|vm_compute; reflexivity]|].
    split; [rewrite (layered_ones (ofZ g) half_turn w D E S); vm_compute; discriminate|].
    exists (Zv 0 0 1), (Zv 1 1 0). unfold small, g, half_turn, ofZ, ofZv. cbn [Base.zx Base.zy Base.zz]. split; [lia|]. split; [lia|].
    split; [vunfold; vcomp; ring|]. split; [vunfold; vcomp; ring|]. vunfold. intros X. injection X. intros. lra.
  - set (g := Zm 3 0 0 (-1) 4 0 (-1) (-1) 5).
    assert (D : det (ofZ g) <> 0) by (unfold g, ofZ; vunfold; lra). assert (N : niggli_reduced (ofZ g)) by (unfold g; niggli_ex).
    apply (C76_TRI None (ofZ g) (ofZ g)); auto; try lra; [split; auto|unfold g; cut_ex|unfold g, ofZ; vunfold; lra|].
    left. intros q Q. destruct (two_fold_matrix _ q D Q) as (v & E' & Tw & S).
    assert (V : In v twos) by (apply in_twos; auto; apply (Sym_small (ofZ g)); auto).
    assert (M : metric (ofZ g) = ofZ (zmul g (ztr g))) by (unfold F_Bravais.metric; rewrite ofZ_mul; f_equal; destruct g; reflexivity).
    unfold Sym in S. rewrite M in S. replace (tr (ofZ v)) with (ofZ (ztr v)) in S by (destruct v; reflexivity). rewrite <- !ofZ_mul in S. apply ofZ_inj in S.
    assert (A : all (fun v => negb (zeqb (zmul (zmul v (zmul g (ztr g))) (ztr v)) (zmul g (ztr g)))) twos = true) by (vm_compute; reflexivity).
    pose proof (proj1 (all_true _ _) A v V) as Z. cbv beta in Z. rewrite (proj2 (zeqb_true _ _) S) in Z. discriminate.
Qed.
