(* P_Description.v : property C80, two descriptions (cell and atoms) of one crystal *)
From Verif Require Import Base M_Strings M_Dict M_Numerical M_Geometry M_Cell M_Niggli M_Atoms T_Tables T_Points M_Spglib M_Conventional
  M_Primitive M_Variation M_Kpoints M_Path F_Geometry F_Voronoi F_Strings F_Atoms F_Kpoints S_Crystal F_Conventional F_Primitive
  P_Conventional P_Monoclinic P_Primitive P_Variation P_Symbol P_Path.

Open Scope string_scope.
Open Scope list_scope.
Open Scope R_scope.

(* ---- specification ---- *)
(* The library finds the same symmetry and the same standard lattices, in the same orientation. *)
Record same_symmetry (d d' : spglib_data) : Prop := {
  ss_number : space_group_number d = space_group_number d';
  ss_family : crystal_family d = crystal_family d';
  ss_centring : centring_type d = centring_type d';
  ss_ccell : conventional_cell d = conventional_cell d';
  ss_pcell : primitive_cell d = primitive_cell d';
  ss_symprec : symprec d = symprec d';
  ss_angle : angle_tolerance d = angle_tolerance d' }.
(* whenever both succeed the results are related *)
Definition agreed {A} (P : A -> A -> Prop) (r r' : res A) : Prop := forall x y, r = Ok x -> r' = Ok y -> P x y.
(* the same named points, each given in its own basis *)
Definition same_points (r r' : mat) (p p' : dict vec) : Prop :=
  Forall2 (fun kv kv' => fst kv = fst kv' /\ vmat (snd kv) r = vmat (snd kv') r') p p'.

(* ---- proofs ---- *)
Lemma obtained l cell atoms d x : obtain_data l cell atoms (Data d) = Ok x -> x = d.
Proof.
  unfold obtain_data. destruct (validate_atoms _ _ _); [|discriminate]. cbn [bind].
  destruct (validate_spglib_data _ _ _); [|discriminate]. cbn [bind]. congruence.
Qed.
Lemma bind_agreed {A B} (P : A -> A -> Prop) (Q : B -> B -> Prop) r r' (k k' : A -> res B) :
  agreed P r r' -> (forall x y, P x y -> agreed Q (k x) (k' y)) -> agreed Q (bind r k) (bind r' k').
Proof.
  intros H K x y E E'. destruct r as [a|]; [|discriminate]. destruct r' as [b|]; [|discriminate]. exact (K a b (H _ _ eq_refl eq_refl) _ _ E E').
Qed.
Lemma refl_agreed {A} (r : res A) : agreed eq r r.
Proof. intros x y E E'. congruence. Qed.
Lemma any_agreed {A} (r r' : res A) : agreed (fun _ _ => True) r r'.
Proof. intros ? ? _ _. exact I. Qed.
Lemma ok_agreed {A} (P : A -> A -> Prop) x y : P x y -> agreed P (Ok x) (Ok y).
Proof. intros H a b E E'. congruence. Qed.
Lemma err_agreed {A} (P : A -> A -> Prop) e r : agreed P (Err e) r.
Proof. intros a b E. discriminate. Qed.
Ltac both_same := eapply bind_agreed; [apply refl_agreed|]; intros ? ? <-.

Lemma angle_same d d' : same_symmetry d d' -> spglib_angle_or_default d = spglib_angle_or_default d'.
Proof. intros S. unfold spglib_angle_or_default. rewrite (ss_angle _ _ S). reflexivity. Qed.
Definition same_fst {A B} (x y : A * B) : Prop := fst x = fst y.
Lemma structure_same ng d d' cv : same_symmetry d d' ->
  agreed (fun x y => fst (fst x) = fst (fst y)) (conventional_structure ng d cv) (conventional_structure ng d' cv).
Proof.
  intros S. unfold conventional_structure. rewrite (angle_same _ _ S). destruct S as [_ -> -> -> -> -> _]. cbv zeta.
  repeat (match goal with |- agreed _ (if ?b then _ else _) (if ?b then _ else _) => destruct b end);
  repeat (first [apply ok_agreed; reflexivity | apply err_agreed | both_same | eapply bind_agreed; [apply any_agreed|]; intros ? ? _]).
Qed.
(* same_points *)
Lemma refl_points r p : same_points r r p p.
Proof. unfold same_points. induction p; constructor; auto. Qed.
Lemma set_same r r' k v v' p p' : same_points r r' p p' -> vmat v r = vmat v' r' -> same_points r r' (setitem k v p) (setitem k v' p').
Proof.
  intros H V. unfold same_points in *. induction H as [|[k1 v1] [k2 v2] p p' (E & F) H IH]; cbn [setitem].
  - repeat constructor. exact V.
  - cbn [fst snd] in E, F. subst k2. destruct (String.eqb k k1); constructor; auto.
Qed.
Lemma extend_same r r' p p' : same_points r r' p p' -> same_points r r' (extend_points p) (extend_points p').
Proof.
  intros H. unfold extend_points.
  assert (X : forall q q', same_points r r' q q' -> forall acc acc', same_points r r' acc acc' ->
     same_points r r' (fold_left (fun d kv => if String.eqb (fst kv) "GAMMA" then d else setitem (String.append (fst kv) "_P") (vneg (snd kv)) d) q acc)
                      (fold_left (fun d kv => if String.eqb (fst kv) "GAMMA" then d else setitem (String.append (fst kv) "_P") (vneg (snd kv)) d) q' acc')).
  { intros q q' Q. induction Q as [|[k1 v1] [k2 v2] q q' (E & F) Q IH]; intros acc acc' A; cbn [fold_left fst snd]; [exact A|].
    cbn [fst snd] in E, F. subst k2. apply IH. destruct (String.eqb k1 "GAMMA"); [exact A|]. apply set_same; [exact A|]. rewrite !vmat_neg, F. reflexivity. }
  apply X; exact H.
Qed.
Lemma keys_same r r' p p' : same_points r r' p p' -> keys p = keys p'.
Proof. unfold same_points, keys. induction 1 as [|[] [] ? ? (E & _)]; cbn [map fst] in *; [reflexivity|]. congruence. Qed.
Lemma get_same r r' p p' k : same_points r r' p p' ->
  match getitem k p, getitem k p' with Ok v, Ok v' => vmat v r = vmat v' r' | Err e, Err e' => e = e' | _, _ => False end.
Proof.
  intros H. unfold getitem. unfold same_points in H. induction H as [|[k1 v1] [k2 v2] p p' (E & F) H IH]; cbn [lookup]; [reflexivity|].
  cbn [fst snd] in E, F. subst k2. destruct (String.eqb k k1); auto.
Qed.
Lemma zip_same r r' : forall p p', same_points r r' p p' ->
  same_points r r' (make_dict (combine (keys p) (map snd p))) (make_dict (combine (keys p') (map snd p'))).
Proof.
  intros p p' H. unfold make_dict.
  assert (X : forall q q', same_points r r' q q' -> forall acc acc', same_points r r' acc acc' ->
     same_points r r' (fold_left (fun d kv => setitem (fst kv) (snd kv) d) (combine (keys q) (map snd q)) acc)
                      (fold_left (fun d kv => setitem (fst kv) (snd kv) d) (combine (keys q') (map snd q')) acc')).
  { intros q q' Q. induction Q as [|[k1 v1] [k2 v2] q q' (E & F) Q IH]; intros acc acc' A; cbn [keys map combine fold_left fst snd]; [exact A|].
    cbn [fst snd] in E, F. subst k2. apply IH. apply set_same; assumption. }
  apply X; [exact H|constructor].
Qed.

Section Two.
  Variable l : option spglib_module.
  Variables cell cell' : mat.
  Variables atoms atoms' : atoms_dict.
  (* the data the function works with *)
  Definition gives (c : mat) (at_ : atoms_dict) (a : data_arg) (d : spglib_data) : Prop := forall x, obtain_data l c at_ a = Ok x -> x = d.
  Lemma conventional_same d d' a a' cv : gives cell atoms a d -> gives cell' atoms' a' d' -> same_symmetry d d' ->
    agreed same_fst (get_conventional l cell atoms cv a) (get_conventional l cell' atoms' cv a').
  Proof.
    intros G G' S. unfold get_conventional.
    eapply (bind_agreed (fun x y => x = d /\ y = d')). { intros x y E E'. split; [apply G|apply G']; assumption. }
    intros ? ? (-> & ->). eapply bind_agreed; [apply structure_same; exact S|]. intros [[c ps] ts] [[c' ps'] ts'] E. cbn [fst] in E. subst c'.
    eapply bind_agreed; [apply any_agreed|]. intros ? ? _. apply ok_agreed. reflexivity.
  Qed.
  Lemma primitive_same d d' a a' cv : gives cell atoms a d -> gives cell' atoms' a' d' -> same_symmetry d d' ->
    agreed same_fst (get_primitive l cell atoms cv a) (get_primitive l cell' atoms' cv a').
  Proof.
    intros G G' S. unfold get_primitive.
    eapply (bind_agreed (fun x y => x = d /\ y = d')). { intros x y E E'. split; [apply G|apply G']; assumption. }
    intros ? ? (-> & ->). eapply (bind_agreed (fun x y => fst (fst x) = fst (fst y))).
    - unfold primitive_structure. cbv zeta. rewrite (ss_family _ _ S), (ss_centring _ _ S), (ss_pcell _ _ S).
      destruct (String.eqb _ "spglib"); [apply ok_agreed; reflexivity|]. destruct (mem _ _); [|apply err_agreed].
      eapply bind_agreed; [apply (conventional_same d d'); [intros ?; apply obtained|intros ?; apply obtained|exact S]|]. intros [c new] [c' new'] E. red in E. cbn [fst] in E. subst c'.
      both_same. do 4 (eapply bind_agreed; [apply any_agreed|]; intros ? ? _).
      eapply bind_agreed; [apply any_agreed|]. intros [? ?] [? ?] _. apply ok_agreed. reflexivity.
    - intros [[c ps] ts] [[c' ps'] ts'] E. cbn [fst] in E. subst c'.
      eapply bind_agreed; [apply any_agreed|]. intros ? ? _. apply ok_agreed. reflexivity.
  Qed.
  Lemma variation_same d d' a a' : gives cell atoms a d -> gives cell' atoms' a' d' -> same_symmetry d d' ->
    agreed eq (sc_get_variation l cell atoms a) (sc_get_variation l cell' atoms' a').
  Proof.
    intros G G' S. unfold sc_get_variation.
    eapply (bind_agreed (fun x y => x = d /\ y = d')). { intros x y E E'. split; [apply G|apply G']; assumption. }
    intros ? ? (-> & ->). cbv zeta. rewrite (angle_same _ _ S), (ss_symprec _ _ S).
    replace (lattice_type d) with (lattice_type d') by (unfold lattice_type; rewrite (ss_family _ _ S), (ss_centring _ _ S); reflexivity).
    destruct (mem _ _); [|apply refl_agreed].
    eapply bind_agreed; [apply (conventional_same d d'); [intros ?; apply obtained|intros ?; apply obtained|exact S]|]. intros [c new] [c' new'] E. red in E. cbn [fst] in E. subst c'. both_same.
    do 3 (destruct (String.eqb (lattice_type d') _); [apply refl_agreed|]).
    destruct (String.eqb (lattice_type d') _); [|apply refl_agreed].
    eapply bind_agreed; [apply (primitive_same d d'); [intros ?; apply obtained|intros ?; apply obtained|exact S]|]. intros [p new2] [p' new2'] E. red in E. cbn [fst] in E. subst p'. apply refl_agreed.
  Qed.
  Lemma symbol_same d d' a a' : gives cell atoms a d -> gives cell' atoms' a' d' -> same_symmetry d d' ->
    agreed eq (hpkot_get_extended_bl_symbol l cell atoms a) (hpkot_get_extended_bl_symbol l cell' atoms' a').
  Proof.
    intros G G' S. unfold hpkot_get_extended_bl_symbol.
    eapply (bind_agreed (fun x y => x = d /\ y = d')). { intros x y E E'. split; [apply G|apply G']; assumption. }
    intros ? ? (-> & ->). cbv zeta. rewrite (ss_number _ _ S).
    replace (lattice_type d) with (lattice_type d') by (unfold lattice_type; rewrite (ss_family _ _ S), (ss_centring _ _ S); reflexivity).
    do 4 (match goal with |- agreed _ (if ?b then _ else _) (if ?b then _ else _) => destruct b end; [apply refl_agreed|]).
    eapply bind_agreed; [apply (conventional_same d d'); [intros ?; apply obtained|intros ?; apply obtained|exact S]|]. intros [c new] [c' new'] E. red in E. cbn [fst] in E. subst c'. apply refl_agreed.
  Qed.
  Lemma placed_same r r' p pts : get_reciprocal cell = Ok r -> get_reciprocal cell' = Ok r' ->
    agreed (same_points r r') (place_points p cell true pts) (place_points p cell' true pts).
  Proof.
    intros R R'. unfold place_points. rewrite R, R'. cbn [bind]. intros x y E E'.
    destruct (minv r) as [b|] eqn:B; [|discriminate]. destruct (minv r') as [b'|] eqn:B'; [|discriminate]. cbn [bind] in E, E'.
    apply minv_ok in B, B'. destruct B as (B & ->), B' as (B' & ->). injection E as <-. injection E' as <-.
    unfold same_points. induction pts as [|[k v] pts IH]; cbn [map]; [constructor|]. constructor; [|exact IH]. cbn [fst snd]. split; [reflexivity|].
    rewrite !(vmat_mmul (vmat v p)), !minv_l, !vmat_id by assumption. reflexivity.
  Qed.
  Lemma path_same d d' a a' cv ti (rel : bool) r r' : obtain_data l cell atoms a = Ok d -> obtain_data l cell' atoms' a' = Ok d' -> same_symmetry d d' ->
    (if rel then get_reciprocal cell = Ok r /\ get_reciprocal cell' = Ok r' else r = mid /\ r' = mid) ->
    agreed (fun x y => fst x = fst y /\ same_points r r' (snd x) (snd y))
      (get_path_and_points l cell atoms a cv ti rel) (get_path_and_points l cell' atoms' a' cv ti rel).
  Proof.
    intros D D' S R. unfold get_path_and_points. rewrite D, D'. cbn [bind].
    eapply bind_agreed; [apply (conventional_same d d'); [intros ?; apply obtained|intros ?; apply obtained|exact S]|]. intros [c new] [c' new'] E. red in E. cbn [fst] in E. subst c'.
    eapply bind_agreed; [apply (primitive_same d d'); [intros ?; apply obtained|intros ?; apply obtained|exact S]|]. intros [p new2] [p' new2'] E. red in E. cbn [fst] in E. subst p'. cbv zeta.
    replace (lattice_type d) with (lattice_type d') by (unfold lattice_type; rewrite (ss_family _ _ S), (ss_centring _ _ S); reflexivity).
    rewrite (ss_number _ _ S). eapply (bind_agreed eq).
    - destruct (String.eqb _ "sc"). { eapply bind_agreed; [apply (variation_same d d'); [intros ?; apply obtained|intros ?; apply obtained|exact S]|]. intros ? ? <-. apply refl_agreed. }
      destruct (String.eqb _ "hpkot"); [|apply err_agreed]. eapply bind_agreed; [apply (symbol_same d d'); [intros ?; apply obtained|intros ?; apply obtained|exact S]|]. intros ? ? <-. apply refl_agreed.
    - intros [pts kp] ? <-. both_same. eapply (bind_agreed (same_points r r')).
      { destruct rel; [destruct R; apply placed_same; assumption|]. destruct R as (-> & ->). unfold place_points. cbn [bind]. apply ok_agreed.
        apply refl_points. }
      intros q q' Q. both_same. destruct (_ && _)%bool; [both_same|]; apply ok_agreed; cbn [fst snd]; split; auto. apply extend_same. exact Q.
  Qed.
End Two.


(* the lists a Kpoints object gives *)
Section Lists.
  Variables r r' : mat.
  Variables p p' : dict vec.
  Hypothesis SAME : same_points r r' p p'.
  Ltac point k := let G := fresh "G" in pose proof (get_same r r' p p' k SAME) as G; destruct (getitem k p), (getitem k p'); try contradiction; try (subst; reflexivity); cbn [bind].
  Lemma ticks_sub_same rest : forall prev acc, ticks_sub p r prev rest acc = ticks_sub p' r' prev rest acc.
  Proof. induction rest as [|x rest IH]; intros prev acc; cbn [ticks_sub]; [reflexivity|]. point x. point prev. rewrite G, G0. apply IH. Qed.
  Lemma ticks_same path : forall first acc, ticks_loop p r first acc path = ticks_loop p' r' first acc path.
  Proof.
    induction path as [|sub path IH]; intros first acc; cbn [ticks_loop]; [reflexivity|]. destruct sub as [|h t]; [apply IH|].
    rewrite ticks_sub_same. destruct (ticks_sub _ _ _ _ _); cbn [bind]; [apply IH|reflexivity].
  Qed.
  Lemma points_sub_same n rest : forall prev acc, points_sub p r n prev rest acc = points_sub p' r' n prev rest acc.
  Proof.
    induction rest as [|x rest IH]; intros prev acc; cbn [points_sub]; [reflexivity|]. point prev. point x. rewrite G, G0.
    destruct (linspace _ _ _); cbn [bind]; [apply IH|reflexivity].
  Qed.
  Lemma points_same n path : forall acc, points_loop p r n acc path = points_loop p' r' n acc path.
  Proof.
    induction path as [|sub path IH]; intros acc; cbn [points_loop]; [reflexivity|]. destruct sub as [|h t]; [apply IH|].
    rewrite points_sub_same. destruct (points_sub _ _ _ _ _ _); cbn [bind]; [apply IH|reflexivity].
  Qed.
  Lemma flat_sub_same n rest : forall first prev acc, flat_sub p r n first prev rest acc = flat_sub p' r' n first prev rest acc.
  Proof.
    induction rest as [|x rest IH]; intros first prev acc; cbn [flat_sub]; [reflexivity|]. point prev. point x. rewrite G, G0.
    destruct (linspace _ _ _); cbn [bind]; [|reflexivity]. cbv zeta.
    match goal with |- bind ?x _ = _ => destruct x end; cbn [bind]; [apply IH|reflexivity].
  Qed.
  Lemma flat_same n path : forall first acc, flat_loop p r n first acc path = flat_loop p' r' n first acc path.
  Proof.
    induction path as [|sub path IH]; intros first acc; cbn [flat_loop]; [reflexivity|]. destruct sub as [|h t]; [apply IH|].
    rewrite flat_sub_same. destruct (flat_sub _ _ _ _ _ _ _); cbn [bind]; [apply IH|reflexivity].
  Qed.
End Lists.
Lemma vscale_cancel k u v : k <> 0 -> vscale k u = vscale k v -> u = v.
Proof.
  intros K. destruct u, v. unfold vscale. cbn. intros E. injection E as E1 E2 E3.
  f_equal; eapply Rmult_eq_reg_l; eauto.
Qed.
Lemma vmat_mscale k u m : vmat u (mscale k m) = vscale k (vmat u m).
Proof. destruct u, m as [[] [] []]. vunfold. vcomp; ring. Qed.
Lemma bind_ok {A B} (r : res A) (k : A -> res B) y : bind r k = Ok y -> exists x, r = Ok x /\ k x = Ok y.
Proof. destruct r; [eauto|discriminate]. Qed.

(* ---- C80 ---- *)
(* The cells, the variation and the symbol. *)
Theorem C80_cells_and_names : forall l cell atoms a cell' atoms' a' d d',
  obtain_data l cell atoms a = Ok d -> obtain_data l cell' atoms' a' = Ok d' -> same_symmetry d d' ->
  (forall cv, agreed (fun x y => fst x = fst y) (get_conventional l cell atoms cv a) (get_conventional l cell' atoms' cv a')) /\
  (forall cv, agreed (fun x y => fst x = fst y) (get_primitive l cell atoms cv a) (get_primitive l cell' atoms' cv a')) /\
  agreed eq (sc_get_variation l cell atoms a) (sc_get_variation l cell' atoms' a') /\
  agreed eq (hpkot_get_extended_bl_symbol l cell atoms a) (hpkot_get_extended_bl_symbol l cell' atoms' a').
Proof.
  intros l cell atoms a cell' atoms' a' d d' D D' S.
  assert (G : gives l cell atoms a d) by (intros x E; congruence).
  assert (G' : gives l cell' atoms' a' d') by (intros x E; congruence).
  split; [intros; apply (conventional_same l cell cell' atoms atoms' d d'); assumption|].
  split; [intros; apply (primitive_same l cell cell' atoms atoms' d d'); assumption|].
  split; [apply (variation_same l cell cell' atoms atoms' d d'); assumption|apply (symbol_same l cell cell' atoms atoms' d d'); assumption].
Qed.
Print Assumptions C80_cells_and_names.
(* The path and, in absolute coordinates, the points are the very same. *)
Theorem C80_absolute_points : forall l cell atoms a cell' atoms' a' d d' cv ti,
  obtain_data l cell atoms a = Ok d -> obtain_data l cell' atoms' a' = Ok d' -> same_symmetry d d' ->
  agreed eq (get_path_and_points l cell atoms a cv ti false) (get_path_and_points l cell' atoms' a' cv ti false).
Proof.
  intros l cell atoms a cell' atoms' a' d d' cv ti D D' S [k p] [k' p'] E E'.
  destruct (path_same l cell cell' atoms atoms' d d' a a' cv ti false mid mid D D' S (conj eq_refl eq_refl) _ _ E E') as (KK & H).
  cbn [fst snd] in *. subst k'. f_equal. unfold same_points in H. clear - H. induction H as [|[] [] ? ? (X & Y)]; [reflexivity|]. cbn [fst snd] in *. rewrite !vmat_id in Y. congruence.
Qed.
Print Assumptions C80_absolute_points.
(* In relative coordinates each description has the points in its own basis. *)
Theorem C80_relative_points : forall l cell atoms a cell' atoms' a' d d' cv ti r r',
  obtain_data l cell atoms a = Ok d -> obtain_data l cell' atoms' a' = Ok d' -> same_symmetry d d' ->
  get_reciprocal cell = Ok r -> get_reciprocal cell' = Ok r' ->
  agreed (fun x y => fst x = fst y /\ same_points r r' (snd x) (snd y))
    (get_path_and_points l cell atoms a cv ti true) (get_path_and_points l cell' atoms' a' cv ti true).
Proof. intros. eapply path_same; eauto. Qed.
Print Assumptions C80_relative_points.
(* If the vectors of the second cell are integer combinations of those of the first, so are the coordinates. *)
Theorem C80_change_of_basis : forall l cell atoms a u atoms' a' d d' cv ti, det cell <> 0 -> det (ofZ u) <> 0 ->
  obtain_data l cell atoms a = Ok d -> obtain_data l (mmul (ofZ u) cell) atoms' a' = Ok d' -> same_symmetry d d' ->
  agreed (fun x y => fst x = fst y /\ Forall2 (fun kv kv' => fst kv = fst kv' /\ snd kv' = vmat (snd kv) (tr (ofZ u))) (snd x) (snd y))
    (get_path_and_points l cell atoms a cv ti true) (get_path_and_points l (mmul (ofZ u) cell) atoms' a' cv ti true).
Proof.
  intros l cell atoms a u atoms' a' d d' cv ti DC DU D D' S [k p] [k' p'] E E'.
  assert (DM : det (mmul (ofZ u) cell) <> 0) by (rewrite det_mmul; apply Rmult_integral_contrapositive_currified; assumption).
  pose proof (get_reciprocal_ok _ DC) as R. pose proof (get_reciprocal_ok _ DM) as R'.
  destruct (path_same l cell _ atoms atoms' d d' a a' cv ti true _ _ D D' S (conj R R') _ _ E E') as (H & P). split; [exact H|].
  unfold same_points in P. cbn [fst snd] in P |- *. clear - DC DU DM P. induction P as [|[x v] [x' v'] ? ? (X & Y)]; constructor; auto.
  cbn [fst snd] in *. split; [exact X|]. clear IHP P X.
  rewrite !vmat_mscale in Y. apply vscale_cancel in Y; [|pose proof PI_RGT_0; lra].
  rewrite !tr_minv in Y by assumption. rewrite tr_mmul in Y.
  apply (f_equal (fun w => vmat w (mmul (tr cell) (tr (ofZ u))))) in Y. rewrite !vmat_mmul in Y.
  rewrite minv_l in Y by (rewrite <- tr_mmul, det_tr; exact DM). rewrite <- mmul_assoc, minv_l, mmul_id_l, vmat_id in Y by (rewrite det_tr; exact DC).
  symmetry. exact Y.
Qed.
Print Assumptions C80_change_of_basis.
(* A Kpoints object made from either description gives the same band path. *)
Theorem C80_band_path : forall l cell atoms a cell' atoms' a' d d' cv ti n k k',
  obtain_data l cell atoms a = Ok d -> obtain_data l cell' atoms' a' = Ok d' -> same_symmetry d d' ->
  from_crystal l cell atoms cv ti n a = Ok k -> from_crystal l cell' atoms' cv ti n a' = Ok k' ->
  k_names k = k_names k' /\ k_path k = k_path k' /\ labels k = labels k' /\ ticks k false = ticks k' false /\
  points k false = points k' false /\ flat_points k false = flat_points k' false.
Proof.
  intros l cell atoms a cell' atoms' a' d d' cv ti n k k' D D' S K K'. unfold from_crystal in K, K'.
  apply bind_ok in K, K'. destruct K as ([path pts] & P & K), K' as ([path' pts'] & P' & K').
  apply bind_ok in K, K'. destruct K as (labs & L & K), K' as (labs' & L' & K').
  apply bind_ok in K, K'. destruct K as (r & R & K), K' as (r' & R' & K').
  destruct (path_same l cell cell' atoms atoms' d d' a a' cv ti true r r' D D' S (conj R R') _ _ P P') as (E & Q). cbn [fst snd] in E, Q. subst path'.
  pose proof (keys_same _ _ _ _ Q) as KE. rewrite KE in L. assert (labs' = labs) by congruence. subst labs'.
  assert (LE : length (map snd pts) = length (map snd pts')) by (apply (f_equal (@length _)) in KE; unfold keys in KE; rewrite !map_length in *; exact KE).
  pose proof (zip_same _ _ _ _ Q) as Z.
  unfold init in K, K'. rewrite LE in K. destruct (Nat.eqb (length labs) _); [|discriminate]. cbn [bind] in K, K'. rewrite KE in K, Z.
  destruct (Nat.eqb (length (keys pts')) _); [|discriminate]. cbn [bind] in K, K'. cbv zeta in K, K'.
  unfold check_path in K, K'. destruct (read_path _) as [pl|]; [|discriminate]. cbn [bind] in K, K'.
  destruct (forallb (fun s => mem s (keys pts')) (List.concat pl)).
  - cbn [bind] in K, K'. injection K as <-. injection K' as <-.
    unfold labels, ticks, points, flat_points, basis. cbn [k_names k_path k_labels k_coords k_rcell k_n].
    repeat split; [eapply ticks_same|eapply points_same|eapply flat_same]; exact Z.
  - destruct (forallb _ _) in K; discriminate.
Qed.
Print Assumptions C80_band_path.

(* A primitive orthorhombic crystal, described with its conventional cell and with a sheared one. *)
Definition view (x c : mat) : spglib_data := SpglibData x [vzero] [1%Z] (/ 100000) (-1) 16 "o" "P" c [vzero] [1%Z] c [vzero] [1%Z].
Lemma view_obtain x c : obtain_data None x one_atom (Data (view x c)) = Ok (view x c).
Proof.
  apply (obtain_own None x one_atom (view x c) (PList [PList [PInt 0; PInt 0; PInt 0]]) (PList [PInt 1])); try reflexivity.
Qed.
Lemma view_conventional x c cv : In cv ["HPKOT"; "hpkot"] ->
  get_conventional None x one_atom cv (Data (view x c)) = Ok (c, [("positions", pos_val [vzero]); ("names", PList [PStr "Fe1"]); ("spglib_types", PList [PNpInt 1])]).
Proof.
  intros CV. unfold get_conventional. rewrite view_obtain. cbn [bind]. unfold conventional_structure. cbv zeta.
  replace (lower cv) with "hpkot" by (destruct CV as [<-|[<-|[]]]; reflexivity).
  cbn [String.eqb Ascii.eqb Bool.eqb orb andb view crystal_family bind conventional_cell conventional_positions conventional_types original_types].
  rewrite one_atom_made. reflexivity.
Qed.
Lemma view_primitive x cell : det cell <> 0 -> exists new, get_primitive None x one_atom "HPKOT" (Data (view x cell)) = Ok (cell, new).
Proof.
  intros D. unfold get_primitive. rewrite view_obtain. cbn [bind]. unfold primitive_structure. cbv zeta.
  change (lower "HPKOT") with "hpkot". change (String.eqb "hpkot" "spglib") with false. change (mem "hpkot" ["hpkot"; "sc"]) with true. cbv iota.
  rewrite view_conventional by (cbn; auto). cbn [bind].
  change (String.eqb "hpkot" "hpkot") with true. cbv iota.
  change (getitem (String.append (crystal_family (view x cell)) (centring_type (view x cell))) HPKOT_CONVENTIONAL_TO_PRIMITIVE) with (Ok mid). cbn [bind].
  assert (M : mmul (Base.tr mid) cell = cell) by (replace (Base.tr mid) with mid by reflexivity; apply mmul_id_l). rewrite M.
  match goal with |- context [getitem "positions" ?l] => change (getitem "positions" l) with (Ok (pos_val [vzero])) end. cbn [bind].
  rewrite positions_of_val. cbn [bind]. unfold reexpress. rewrite (proj2 (minv_ok _ _) (conj D eq_refl)). cbn [bind map].
  match goal with |- context [getitem "spglib_types" ?l] => change (getitem "spglib_types" l) with (Ok (PList [PNpInt 1])) end. cbn [bind].
  change (ints (PList [PNpInt 1])) with [1%Z].
  replace (vmat (vmat vzero cell) (minv_total cell)) with (V3 0 0 0) by (rewrite vmat_mmul, minv_r, vmat_id by auto; reflexivity).
  replace (Rabs (det cell / det cell)) with 1 by (replace (det cell / det cell) with 1 by (field; auto); rewrite Rabs_R1; auto).
  unfold get_unique. cbv zeta. cbn [map]. unfold normal_position, vmap. cbn [vx vy vz]. rewrite coord_0, (round_int 1).
  change (symprec (view x cell)) with (/ 100000).
  cbn [forallb]. unfold n_equiv. cbn [filter]. rewrite !same_refl by lra. cbn [length].
  change (Z.of_nat 1 =? 1)%Z with true. change (1 =? 1)%nat with true. cbn [andb negb].
  change (enumerate [V3 0 0 0]) with [(0%nat, V3 0 0 0)].
  cbn [unique_loop filter snd]. cbn [negb unique_loop at_indices map nth_error concat app bind].
  eexists. reflexivity.
Qed.
Definition upright : mat := mk 1 0 0 0 2 0 0 0 3.
Definition shear : zmat := Zm 1 1 0  0 1 0  0 0 1.
Lemma view_path x : det x <> 0 -> exists path pts, get_path_and_points None x one_atom (Data (view x upright)) "HPKOT" true true = Ok (path, pts).
Proof.
  set (c := upright). intros DX. assert (D : det c <> 0) by (unfold c, upright; vunfold; lra).
  assert (B : big c) by (unfold c, upright, mk; apply big_M3; repeat split; apply norm_big; unfold dot; cbn [vx vy vz]; lra).
  unfold get_path_and_points. rewrite view_obtain. cbn [bind]. rewrite view_conventional by (cbn; auto). cbn [bind].
  destruct (view_primitive x c D) as (new & P). rewrite P. cbn [bind]. cbv zeta. change (lower "HPKOT") with "hpkot".
  change (String.eqb "hpkot" "sc") with false. change (String.eqb "hpkot" "hpkot") with true. cbv iota.
  assert (S : hpkot_get_extended_bl_symbol None x one_atom (Data (view x c)) = Ok "oP1").
  { unfold hpkot_get_extended_bl_symbol. rewrite view_obtain. reflexivity. }
  rewrite S. cbn [bind]. unfold hpkot_get_points. rewrite (get_params_val _ B). cbn [bind]. cbv zeta.
  cbv [mem existsb String.eqb Ascii.eqb Bool.eqb orb]. unfold hpkot_table_75. cbn [bind].
  cbv [getitem lookup String.eqb Ascii.eqb Bool.eqb HPKOT_DEFAULT_K_PATHS]. cbn [bind].
  rewrite (get_reciprocal_ok _ D). cbn [bind]. unfold place_points. rewrite (get_reciprocal_ok _ DX). cbn [bind].
  assert (DR : exists b, minv (mscale (2 * PI) (Base.tr (minv_total x))) = Ok b).
  { eexists. apply minv_ok. split; [|reflexivity]. pose proof (reciprocal_det _ _ (get_reciprocal_ok _ DX)) as X. intros Z. rewrite Z, Rmult_0_l in X.
    pose proof PI_RGT_0 as PP. assert (PI * (PI * PI) > 0) by (apply Rmult_gt_0_compat; [exact PP|apply Rmult_gt_0_compat; exact PP]). lra. }
  destruct DR as (b & DR). rewrite DR. cbn [bind]. change (zgetitem (space_group_number (view x c)) INVERSION_SYMMETRY) with (Ok false). cbn [bind negb andb].
  do 2 eexists. reflexivity.
Qed.
Example C80_case : exists cell u d d', det cell <> 0 /\ det (ofZ u) <> 0 /\ mmul (ofZ u) cell <> cell /\
  obtain_data None cell one_atom (Data d) = Ok d /\ obtain_data None (mmul (ofZ u) cell) one_atom (Data d') = Ok d' /\ same_symmetry d d' /\
  (exists r, get_path_and_points None cell one_atom (Data d) "HPKOT" true true = Ok r) /\
  (exists r, get_path_and_points None (mmul (ofZ u) cell) one_atom (Data d') "HPKOT" true true = Ok r) /\
  (exists k, from_crystal None cell one_atom "HPKOT" true 100 (Data d) = Ok k) /\
  (exists k, from_crystal None (mmul (ofZ u) cell) one_atom "HPKOT" true 100 (Data d') = Ok k).
Proof.
  assert (DC : det upright <> 0) by (unfold upright; vunfold; lra).
  assert (DU : det (ofZ shear) <> 0) by (unfold shear; vunfold; cbn; lra).
  assert (DM : det (mmul (ofZ shear) upright) <> 0) by (rewrite det_mmul; apply Rmult_integral_contrapositive_currified; assumption).
  destruct (view_path upright DC) as (path & pts & P). destruct (view_path _ DM) as (path' & pts' & P').
  exists upright, shear, (view upright upright), (view (mmul (ofZ shear) upright) upright). split; [exact DC|]. split; [exact DU|]. split.
  { intros E. apply (f_equal (fun m => vy (row1 m))) in E. revert E. unfold upright, shear. vunfold. cbn. lra. }
  split; [apply view_obtain|]. split; [apply view_obtain|]. split; [constructor; reflexivity|]. split; [eauto|]. split; [eauto|]. split.
  - destruct (C42_from_crystal _ _ _ _ _ _ 100%Z _ _ P) as (k & K & _). eauto.
  - destruct (C42_from_crystal _ _ _ _ _ _ 100%Z _ _ P') as (k & K & _). eauto.
Qed.
