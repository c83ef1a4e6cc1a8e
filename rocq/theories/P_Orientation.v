(* P_Orientation.v : C68, the results do not depend on how the crystal is oriented in space. *)
From Verif Require Import Base M_Strings M_Dict M_Numerical M_Geometry M_Cell M_Niggli M_Atoms T_Tables T_Points M_Spglib M_Conventional
  M_Primitive M_Variation M_Kpoints M_Path F_Geometry F_Conventional S_Crystal F_Primitive P_Conventional P_SpglibData F_Crystals P_Primitive
  P_Variation P_Symbol P_Path S_Zone F_Zone F_ZoneCells P_Zone P_ZoneCases.
Open Scope string_scope.
Open Scope list_scope.
Open Scope R_scope.

(* ---- specification ---- *)
(* The answer for the turned crystal is the turned answer; failures are the same. *)
Definition through {A B} (f : A -> B) (r : res A) : res B := match r with Ok x => Ok (f x) | Err e => Err e end.
(* A crystal structure: cell and atoms with relative positions.  Turning it changes the cell only. *)
Definition turn_structure (q : mat) (s : mat * atoms_dict) : mat * atoms_dict := (mmul (fst s) q, snd s).
Definition turn_points (q : mat) (r : string * dict vec) : string * dict vec :=
  (fst r, map (fun kv => (fst kv, vmat (snd kv) q)) (snd r)).
Definition turn_kpoints (q : mat) (k : kpoints) : kpoints :=
  Kp (mmul (k_rcell k) q) (k_names k) (k_coords k) (k_labels k) (k_path k) (k_n k) (k_shared k).
Definition turn_data (q : mat) (d : spglib_data) : spglib_data :=
  SpglibData (mmul (original_cell d) q) (original_positions d) (original_types d) (symprec d) (angle_tolerance d)
    (space_group_number d) (crystal_family d) (centring_type d)
    (mmul (conventional_cell d) q) (conventional_positions d) (conventional_types d)
    (mmul (primitive_cell d) q) (primitive_positions d) (primitive_types d).
(* What is asked of the library: the idealised crystal it answers with does not depend on the
   orientation, only the matrix that puts the idealised crystal in place does; the reduced cell turns
   with the cell. *)
Definition turn_dataset (q : mat) (ds : dataset) : dataset :=
  Dataset (ds_number ds) (ds_std_lattice ds) (mmul (ds_std_rotation_matrix ds) q) (ds_std_positions ds) (ds_std_types ds).
Definition turns_with (lib : spglib_module) (q : mat) : Prop :=
  (forall c ps ts sp an, get_symmetry_dataset lib (mmul c q) ps ts sp an = option_map (turn_dataset q) (get_symmetry_dataset lib c ps ts sp an)) /\
  (forall c ps ts sp an, find_primitive lib (mmul c q) ps ts sp an = find_primitive lib c ps ts sp an) /\
  (forall c eps, niggli_reduce lib (mmul c q) eps = through (fun m => mmul m q) (niggli_reduce lib c eps)).
(* All functions that take a crystal, asked about the crystal and about the turned one. *)
Definition all_turn (l : option spglib_module) (q cell : mat) (atoms : atoms_dict) (a a' : data_arg) : Prop :=
  (forall cv, get_conventional l (mmul cell q) atoms cv a' = through (turn_structure q) (get_conventional l cell atoms cv a)) /\
  (forall cv, get_primitive l (mmul cell q) atoms cv a' = through (turn_structure q) (get_primitive l cell atoms cv a)) /\
  sc_get_variation l (mmul cell q) atoms a' = sc_get_variation l cell atoms a /\
  hpkot_get_extended_bl_symbol l (mmul cell q) atoms a' = hpkot_get_extended_bl_symbol l cell atoms a /\
  (forall cv tr, get_path_and_points l (mmul cell q) atoms a' cv tr true = get_path_and_points l cell atoms a cv tr true) /\
  (forall cv tr, get_path_and_points l (mmul cell q) atoms a' cv tr false = through (turn_points q) (get_path_and_points l cell atoms a cv tr false)) /\
  (forall cv tr n, from_crystal l (mmul cell q) atoms cv tr n a' = through (turn_kpoints q) (from_crystal l cell atoms cv tr n a)).

(* ---- the parts ---- *)
Lemma orth_det q : orthogonal q -> det q <> 0.
Proof.
  intros O Z. unfold orthogonal in O. apply (f_equal det) in O. rewrite det_mmul, Z, Rmult_0_l in O. assert (det mid = 1) by (vunfold; ring). lra.
Qed.
Lemma rows_turn m q : row1 (mmul m q) = vmat (row1 m) q /\ row2 (mmul m q) = vmat (row2 m) q /\ row3 (mmul m q) = vmat (row3 m) q.
Proof. destruct m as [[] [] []], q as [[] [] []]. repeat split; vunfold; vcomp; ring. Qed.
Lemma angle_turn u v q b : orthogonal q -> get_angle (vmat u q) (vmat v q) b = get_angle u v b.
Proof.
  intros O. unfold get_angle. rewrite !norm_vmat by auto.
  assert (E : forall s t, dot (vscale s (vmat u q)) (vscale t (vmat v q)) = dot (vscale s u) (vscale t v)).
  { intros s t. rewrite <- (dot_as_vmat (vscale s u) (vscale t v) q O). f_equal; destruct u, v, q as [[] [] []]; vunfold; vcomp; ring. }
  rewrite E. reflexivity.
Qed.
Lemma params_turn m q : orthogonal q -> get_params (mmul m q) = get_params m.
Proof.
  intros O. unfold get_params. destruct (rows_turn m q) as (-> & -> & ->). rewrite !angle_turn, !norm_vmat by auto. reflexivity.
Qed.
Lemma recip_turn m q : orthogonal q -> get_reciprocal (mmul m q) = through (fun r => mmul r q) (get_reciprocal m).
Proof.
  intros O. pose proof (orth_det q O) as DQ. destruct (Req_dec (det m) 0) as [Z|D].
  - rewrite !get_reciprocal_err; [reflexivity|exact Z|rewrite det_mmul, Z; ring].
  - assert (R := get_reciprocal_ok m D). set (r := mscale (2 * PI) (tr (minv_total m))) in R. pose proof (reciprocal_dual _ _ R) as RD. rewrite R. cbn [through].
    apply reciprocal_unique.
    + rewrite det_mmul. apply Rmult_integral_contrapositive_currified; auto.
    + rewrite tr_mmul, mmul_assoc, <- (mmul_assoc q (tr q)), O, mmul_id_l. exact RD.
Qed.
Lemma tapply_turn k m q : tapply k (mmul m q) = mmul (tapply k m) q.
Proof. unfold tapply. rewrite mmul_assoc. reflexivity. Qed.
Lemma reexpress_turn ps m n q : orthogonal q -> reexpress ps (mmul m q) (mmul n q) = reexpress ps m n.
Proof.
  intros O. pose proof (orth_det q O) as DQ. unfold reexpress. destruct (Req_dec (det n) 0) as [Z|D].
  - unfold minv. rewrite !(proj2 (Reqb_true _ _)); [reflexivity|exact Z|rewrite det_mmul, Z; ring].
  - assert (D' : det (mmul n q) <> 0) by (rewrite det_mmul; apply Rmult_integral_contrapositive_currified; auto).
    unfold minv. rewrite !(proj2 (Reqb_false _ _)) by assumption. cbn [bind]. f_equal. apply map_ext. intros p.
    rewrite !vmat_mmul. f_equal. rewrite mmul_assoc. f_equal.
    assert (X : mmul (mmul n q) (minv_total (mmul n q)) = mid).
    { apply minv_r. exact D'. }
    assert (Y : mmul (minv_total n) n = mid) by (apply minv_l; exact D).
    rewrite <- (mmul_id_l (mmul q (minv_total (mmul n q)))), <- Y, mmul_assoc.
    rewrite <- (mmul_assoc n q), X, mmul_id_r. reflexivity.
Qed.

Lemma through_bind {A B C} (f : A -> B) (r : res A) (k : B -> res C) : bind (through f r) k = bind r (fun x => k (f x)).
Proof. destruct r; reflexivity. Qed.
Lemma bind_through {A B C} (f : B -> C) (r : res A) (k : A -> res B) : through f (bind r k) = bind r (fun x => through f (k x)).
Proof. destruct r; reflexivity. Qed.
Lemma bind_ext {A B} (r : res A) (k k' : A -> res B) : (forall x, r = Ok x -> k x = k' x) -> bind r k = bind r k'.
Proof. intros H. destruct r as [x|e]; cbn [bind]; auto. Qed.
Lemma through_ext {A B} (f g : A -> B) r : (forall x, f x = g x) -> through f r = through g r.
Proof. intros H. destruct r; cbn; congruence. Qed.

Section Turn.
  Context (q : mat) (O : orthogonal q).
  Local Notation T := (fun m => mmul m q).

  Ltac go := repeat (first [rewrite params_turn by exact O | rewrite recip_turn by exact O | rewrite tapply_turn | rewrite through_bind | rewrite bind_through
                           | rewrite reexpress_turn by exact O
                           | match goal with |- bind ?r _ = bind ?r _ => apply bind_ext; intros ? _ end]; cbv beta zeta).
  Lemma oPFI_turn m : sc_conventional_oPFI (mmul m q) = through T (sc_conventional_oPFI m).
  Proof. unfold sc_conventional_oPFI. go. cbn [through]. reflexivity. Qed.
  Lemma oC_turn m : sc_conventional_oC (mmul m q) = through T (sc_conventional_oC m).
  Proof. unfold sc_conventional_oC. go. cbn [through]. reflexivity. Qed.
  Lemma m_turn m ce eps : sc_conventional_m (mmul m q) ce eps = through T (sc_conventional_m m ce eps).
  Proof. unfold sc_conventional_m. go. cbn [through]. reflexivity. Qed.
  Lemma a_turn m eps : sc_conventional_a (mmul m q) eps = through T (sc_conventional_a m eps).
  Proof. unfold sc_conventional_a. go. cbn [through]. reflexivity. Qed.
  Lemma hR_turn m ae de : sc_conventional_hR (mmul m q) ae de = through T (sc_conventional_hR m ae de).
  Proof. unfold sc_conventional_hR. go. destruct (_ || _)%bool; [reflexivity|]. go. cbn [through]. reflexivity. Qed.
  Lemma no_hR_turn m f ce eps : sc_conventional_no_hR (mmul m q) f ce eps = through T (sc_conventional_no_hR m f ce eps).
  Proof.
    unfold sc_conventional_no_hR. destruct (_ || _)%bool; [reflexivity|]. destruct (String.eqb f "o").
    - destruct (mem ce _); [apply oPFI_turn|]. destruct (String.eqb ce "C"); [apply oC_turn|]. destruct (String.eqb ce "A"); [|reflexivity].
      rewrite tapply_turn. apply oC_turn.
    - destruct (String.eqb f "m"); [apply m_turn|]. destruct (String.eqb f "a"); [apply a_turn|reflexivity].
  Qed.

  Context (l : option spglib_module)
    (N : match l with Some lib => forall c eps, niggli_reduce lib (mmul c q) eps = through T (niggli_reduce lib c eps) | None => True end).
  Lemma niggli_turn c eps n : get_niggli (lib_niggli l) (mmul c q) eps "spglib" n = through T (get_niggli (lib_niggli l) c eps "spglib" n).
  Proof. unfold get_niggli. cbn -[mmul]. destruct l as [lib|]; cbn [lib_niggli]; [apply N|reflexivity]. Qed.
  Lemma hpkot_a_turn m : hpkot_conventional_a (lib_niggli l) (mmul m q) = through T (hpkot_conventional_a (lib_niggli l) m).
  Proof.
    unfold hpkot_conventional_a. go. rewrite niggli_turn. go.
    match goal with |- context [row2 (mmul ?r q)] => destruct (rows_turn r q) as (-> & -> & ->) end.
    rewrite !dot_as_vmat by exact O. go. cbn [through]. reflexivity.
  Qed.
  Definition turn_triple (s : mat * list vec * list Z) : mat * list vec * list Z := (mmul (fst (fst s)) q, snd (fst s), snd s).
  Lemma conventional_turn d cv : conventional_structure (lib_niggli l) (turn_data q d) cv = through turn_triple (conventional_structure (lib_niggli l) d cv).
  Proof.
    unfold conventional_structure. cbv zeta. cbn [turn_data crystal_family centring_type conventional_cell conventional_positions conventional_types primitive_cell primitive_positions primitive_types symprec].
    change (spglib_angle_or_default (turn_data q d)) with (spglib_angle_or_default d).
    destruct (_ || _)%bool.
    - destruct (_ && _)%bool; [|reflexivity]. rewrite hpkot_a_turn. go. reflexivity.
    - destruct (String.eqb _ "sc"); [|reflexivity]. destruct (_ && _)%bool.
      + rewrite hR_turn. go. reflexivity.
      + rewrite no_hR_turn. go. reflexivity.
  Qed.

  Context (cell : mat) (atoms : atoms_dict).
  (* the data of the crystal, once obtained, is accepted again *)
  Definition good (d : spglib_data) : Prop :=
    obtain_data l cell atoms (Data d) = Ok d /\ obtain_data l (mmul cell q) atoms (Data (turn_data q d)) = Ok (turn_data q d).
  Lemma get_conventional_turn a a' cv : obtain_data l (mmul cell q) atoms a' = through (turn_data q) (obtain_data l cell atoms a) ->
    get_conventional l (mmul cell q) atoms cv a' = through (turn_structure q) (get_conventional l cell atoms cv a).
  Proof.
    intros E. unfold get_conventional. rewrite E. go. rewrite conventional_turn. go.
    destruct x0 as [[c ps] ts]. cbn [turn_triple fst snd]. change (original_types (turn_data q x)) with (original_types x). go. reflexivity.
  Qed.
  Lemma conv_data d cv : good d -> get_conventional l (mmul cell q) atoms cv (Data (turn_data q d)) = through (turn_structure q) (get_conventional l cell atoms cv (Data d)).
  Proof. intros (G & G'). apply get_conventional_turn. rewrite G, G'. reflexivity. Qed.
  Lemma ratio_turn m n : det (mmul m q) / det (mmul n q) = det m / det n.
  Proof.
    pose proof (orth_det q O) as D. rewrite !det_mmul. destruct (Req_dec (det n) 0) as [Z|Z].
    - rewrite Z, Rmult_0_l. unfold Rdiv. rewrite Rinv_0. ring.
    - field. auto.
  Qed.
  Lemma structure_turn d cv : good d ->
    primitive_structure l (mmul cell q) atoms (turn_data q d) cv = through turn_triple (primitive_structure l cell atoms d cv).
  Proof.
    intros G. unfold primitive_structure. cbv zeta. cbn [turn_data crystal_family centring_type primitive_cell primitive_positions primitive_types symprec].
    destruct (String.eqb (lower cv) "spglib"); [reflexivity|]. destruct (mem (lower cv) _); [|reflexivity].
    fold (turn_data q d). rewrite conv_data by exact G. go. destruct x as [c new]. cbn [turn_structure fst snd]. go.
    rewrite <- (mmul_assoc (tr _) c q). go. rewrite ratio_turn. go. match goal with x : (list vec * list Z)%type |- _ => destruct x end. reflexivity.
  Qed.
  Lemma get_primitive_turn a a' cv : obtain_data l (mmul cell q) atoms a' = through (turn_data q) (obtain_data l cell atoms a) ->
    (forall d, obtain_data l cell atoms a = Ok d -> good d) ->
    get_primitive l (mmul cell q) atoms cv a' = through (turn_structure q) (get_primitive l cell atoms cv a).
  Proof.
    intros E G. unfold get_primitive. rewrite E. rewrite through_bind, bind_through. apply bind_ext. intros d Ed. rewrite structure_turn by auto. go.
    destruct x as [[c ps] ts]. cbn [turn_triple fst snd]. change (original_types (turn_data q d)) with (original_types d). go. reflexivity.
  Qed.
  Lemma prim_data d cv : good d -> get_primitive l (mmul cell q) atoms cv (Data (turn_data q d)) = through (turn_structure q) (get_primitive l cell atoms cv (Data d)).
  Proof.
    intros (G & G'). apply get_primitive_turn.
    - rewrite G, G'. reflexivity.
    - intros d' Ed. rewrite G in Ed. replace d' with d by congruence. split; assumption.
  Qed.
  Ltac go2 := repeat (first [rewrite params_turn by exact O | rewrite recip_turn by exact O | rewrite through_bind | rewrite bind_through
                            | match goal with |- bind ?r _ = bind ?r _ => apply bind_ext; intros ? _ end]; cbv beta zeta).
  Lemma variation_turn a a' : obtain_data l (mmul cell q) atoms a' = through (turn_data q) (obtain_data l cell atoms a) ->
    (forall d, obtain_data l cell atoms a = Ok d -> good d) ->
    sc_get_variation l (mmul cell q) atoms a' = sc_get_variation l cell atoms a.
  Proof.
    intros E G. unfold sc_get_variation. rewrite E. rewrite through_bind. apply bind_ext. intros d Ed. apply G in Ed. cbv zeta.
    change (lattice_type (turn_data q d)) with (lattice_type d). change (spglib_angle_or_default (turn_data q d)) with (spglib_angle_or_default d).
    change (symprec (turn_data q d)) with (symprec d).
    destruct (mem (lattice_type d) _); [|reflexivity]. rewrite conv_data by exact Ed. go2. destruct x as [c new]. cbn [turn_structure fst snd]. go2.
    destruct (String.eqb _ "tI"); [reflexivity|]. destruct (String.eqb _ "oF"); [reflexivity|]. destruct (String.eqb _ "hR"); [reflexivity|].
    destruct (String.eqb _ "mC").
    - rewrite prim_data by exact Ed. go2. destruct x0 as [c' new']. cbn [turn_structure fst snd]. go2. reflexivity.
    - destruct (String.eqb _ "aP"); [|reflexivity]. go2. reflexivity.
  Qed.
  Lemma symbol_turn a a' : obtain_data l (mmul cell q) atoms a' = through (turn_data q) (obtain_data l cell atoms a) ->
    (forall d, obtain_data l cell atoms a = Ok d -> good d) ->
    hpkot_get_extended_bl_symbol l (mmul cell q) atoms a' = hpkot_get_extended_bl_symbol l cell atoms a.
  Proof.
    intros E G. unfold hpkot_get_extended_bl_symbol. rewrite E. rewrite through_bind. apply bind_ext. intros d Ed. apply G in Ed. cbv zeta.
    change (lattice_type (turn_data q d)) with (lattice_type d). change (space_group_number (turn_data q d)) with (space_group_number d).
    destruct (mem (lattice_type d) _); [reflexivity|]. destruct (String.eqb _ "cP"); [reflexivity|]. destruct (String.eqb _ "cF"); [reflexivity|].
    destruct (String.eqb _ "hP"); [reflexivity|]. rewrite conv_data by exact Ed. go2. destruct x as [c new]. cbn [turn_structure fst snd]. go2.
    do 7 (match goal with |- (if ?b then _ else _) = _ => destruct b end; [reflexivity|]).
    destruct (String.eqb _ "aP"); [|reflexivity]. go2. reflexivity.
  Qed.
  Lemma sc_points_turn c lt v : sc_get_points (mmul c q) lt v = sc_get_points c lt v.
  Proof. unfold sc_get_points. rewrite params_turn by exact O. reflexivity. Qed.
  Lemma hpkot_points_turn c lt s : hpkot_get_points (mmul c q) lt s = hpkot_get_points c lt s.
  Proof. unfold hpkot_get_points. rewrite params_turn by exact O. reflexivity. Qed.
  Lemma place_rel_turn r pts : place_points (mmul r q) (mmul cell q) true pts = place_points r cell true pts.
  Proof.
    unfold place_points. cbv beta iota. rewrite recip_turn by exact O. rewrite through_bind. destruct (get_reciprocal cell) as [b|e]; cbn [bind]; [|reflexivity].
    pose proof (fun p => reexpress_turn [p] r b q O) as X. unfold reexpress in X.
    destruct (minv (mmul b q)) as [i|e], (minv b) as [j|e']; cbn [bind map] in X |- *.
    - f_equal. apply map_ext. intros [k p]. cbn [fst snd]. specialize (X p). congruence.
    - specialize (X vzero). discriminate.
    - specialize (X vzero). discriminate.
    - specialize (X vzero). congruence.
  Qed.
  Definition tp (pts : dict vec) : dict vec := map (fun kv => (fst kv, vmat (snd kv) q)) pts.
  Lemma place_abs_turn r pts : place_points (mmul r q) (mmul cell q) false pts = through tp (place_points r cell false pts).
  Proof. unfold place_points, tp. cbn [bind through]. rewrite map_map. apply (f_equal Ok). apply map_ext. intros [k p]. cbn [fst snd]. rewrite vmat_mmul. reflexivity. Qed.
  Lemma setitem_tp k v pts : setitem k (vmat v q) (tp pts) = tp (setitem k v pts).
  Proof. unfold tp. induction pts as [|[k' v'] pts IH]; [reflexivity|]. cbn [setitem map fst snd]. destruct (String.eqb k k'); [reflexivity|]. cbn [map fst snd]. rewrite IH. reflexivity. Qed.
  Lemma extend_tp pts : extend_points (tp pts) = tp (extend_points pts).
  Proof.
    unfold extend_points. generalize pts at 2 4. intros acc. revert acc. induction pts as [|[k v] pts IH]; intros acc; [reflexivity|].
    cbn [tp map fold_left fst snd]. fold (tp pts). destruct (String.eqb k "GAMMA"); [apply IH|].
    assert (V : vneg (vmat v q) = vmat (vneg v) q) by (generalize v q; clear; intros [] [[] [] []]; vunfold; vcomp; ring).
    rewrite V, setitem_tp. apply IH.
  Qed.
  Lemma path_turn a a' cv ti (rel : bool) : obtain_data l (mmul cell q) atoms a' = through (turn_data q) (obtain_data l cell atoms a) ->
    (forall d, obtain_data l cell atoms a = Ok d -> good d) ->
    get_path_and_points l (mmul cell q) atoms a' cv ti rel =
    through (fun r => if rel then r else turn_points q r) (get_path_and_points l cell atoms a cv ti rel).
  Proof.
    intros E G. unfold get_path_and_points. rewrite E. rewrite through_bind, bind_through. apply bind_ext. intros d Ed. apply G in Ed.
    assert (V : sc_get_variation l (mmul cell q) atoms (Data (turn_data q d)) = sc_get_variation l cell atoms (Data d) /\
                hpkot_get_extended_bl_symbol l (mmul cell q) atoms (Data (turn_data q d)) = hpkot_get_extended_bl_symbol l cell atoms (Data d)).
    { destruct Ed as (G1 & G2). split; [apply variation_turn|apply symbol_turn]; try (rewrite G1, G2; reflexivity);
      intros d' Ed; rewrite G1 in Ed; replace d' with d by congruence; split; assumption. }
    destruct V as (-> & ->). rewrite conv_data, prim_data by exact Ed. go2. destruct x as [c new]. cbn [turn_structure fst snd]. go2.
    destruct x as [c' new']. cbn [turn_structure fst snd]. go2.
    change (lattice_type (turn_data q d)) with (lattice_type d). change (space_group_number (turn_data q d)) with (space_group_number d).
    match goal with |- bind ?r ?k = bind ?r' ?k' => assert (ER : r = r') end.
    { destruct (String.eqb _ "sc"); [go2; rewrite sc_points_turn; reflexivity|]. destruct (String.eqb _ "hpkot"); [go2; rewrite hpkot_points_turn; reflexivity|reflexivity]. }
    rewrite ER. go2. destruct x as [pts kp]. go2. destruct rel.
    - rewrite place_rel_turn. go2. destruct (_ && _)%bool; [go2|]; reflexivity.
    - rewrite place_abs_turn. go2. destruct (_ && _)%bool; [go2|]; cbn [through turn_points fst snd]; [|reflexivity].
      rewrite extend_tp. reflexivity.
  Qed.
  Lemma all_turn_of a a' : obtain_data l (mmul cell q) atoms a' = through (turn_data q) (obtain_data l cell atoms a) ->
    (forall d, obtain_data l cell atoms a = Ok d -> good d) -> all_turn l q cell atoms a a'.
  Proof.
    intros E G. assert (P : forall cv ti, get_path_and_points l (mmul cell q) atoms a' cv ti true = get_path_and_points l cell atoms a cv ti true).
    { intros. rewrite (path_turn a a' cv ti true E G). destruct (get_path_and_points _ _ _ _ _ _ _); reflexivity. }
    split; [intros; apply get_conventional_turn; assumption|]. split; [intros; apply get_primitive_turn; assumption|].
    split; [apply variation_turn; assumption|]. split; [apply symbol_turn; assumption|]. split; [exact P|].
    split; [intros; apply (path_turn a a' cv tr false E G)|].
    intros cv ti n. unfold from_crystal. rewrite P. go2. destruct x as [path pts]. go2.
    unfold init. go2. cbn [through turn_kpoints k_rcell k_names k_coords k_labels k_path k_n k_shared]. reflexivity.
  Qed.
End Turn.

Lemma data_turn lib q cell atoms sp an : turns_with lib q ->
  get_spglib_data (Some lib) (mmul cell q) atoms sp an = through (turn_data q) (get_spglib_data (Some lib) cell atoms sp an).
Proof.
  intros (S & F & _). unfold get_spglib_data. do 4 (rewrite bind_through; apply bind_ext; intros ? _). cbv zeta. rewrite S, F.
  destruct (get_symmetry_dataset lib cell _ _ sp an) as [ds|]; cbn [option_map]; [|reflexivity]. cbn [turn_dataset ds_number ds_std_lattice ds_std_rotation_matrix ds_std_positions ds_std_types].
  do 2 (rewrite bind_through; apply bind_ext; intros ? _). destruct (find_primitive lib cell _ _ sp an) as [[[pcell pps] pts]|]; [|reflexivity].
  cbn [through]. unfold turn_data. cbn [original_cell original_positions original_types symprec angle_tolerance space_group_number crystal_family centring_type
       conventional_cell conventional_positions conventional_types primitive_cell primitive_positions primitive_types].
  rewrite !mmul_assoc. reflexivity.
Qed.

(* ---- C68 ---- *)
Theorem C68_data : forall lib q, turns_with lib q -> forall cell atoms sp an,
  get_spglib_data (Some lib) (mmul cell q) atoms sp an = through (turn_data q) (get_spglib_data (Some lib) cell atoms sp an).
Proof. intros. apply data_turn. assumption. Qed.
Print Assumptions C68_data.
(* Every function, with the data computed inside. *)
Theorem C68_orientation : forall lib q, orthogonal q -> turns_with lib q -> forall cell atoms,
  all_turn (Some lib) q cell atoms NoData NoData.
Proof.
  intros lib q O W cell atoms. pose proof W as (_ & _ & N). apply all_turn_of; auto.
  - unfold obtain_data. rewrite (data_turn lib q cell atoms _ _ W). destruct (validate_atoms _ _ _); reflexivity.
  - intros d Ed. unfold obtain_data in Ed. destruct (validate_atoms _ _ _) eqn:VA; cbn [bind] in Ed; [|discriminate]. split.
    + apply (C32_data_reused (Some lib) cell atoms "SC" d _ _ Ed).
    + refine (proj1 (C32_data_reused (Some lib) (mmul cell q) atoms "SC" (turn_data q d) default_symprec default_spglib_angle _)).
      rewrite data_turn, Ed by assumption. reflexivity.
Qed.
Print Assumptions C68_orientation.
(* Every function, with the data of either crystal computed beforehand, with any tolerances. *)
Theorem C68_given_data : forall lib q, orthogonal q -> turns_with lib q -> forall cell atoms sp an d d',
  get_spglib_data (Some lib) cell atoms sp an = Ok d -> get_spglib_data (Some lib) (mmul cell q) atoms sp an = Ok d' ->
  all_turn (Some lib) q cell atoms (Data d) (Data d').
Proof.
  intros lib q O W cell atoms sp an d d' Ed Ed'. pose proof W as (_ & _ & N).
  assert (d' = turn_data q d) as -> by (rewrite data_turn, Ed in Ed' by assumption; cbn [through] in Ed'; congruence).
  assert (A : obtain_data (Some lib) cell atoms (Data d) = Ok d) by apply (C32_data_reused (Some lib) cell atoms "SC" d _ _ Ed).
  assert (B : obtain_data (Some lib) (mmul cell q) atoms (Data (turn_data q d)) = Ok (turn_data q d)) by apply (C32_data_reused (Some lib) (mmul cell q) atoms "SC" _ _ _ Ed').
  apply all_turn_of; auto.
  - rewrite A, B. reflexivity.
  - intros d0 E0. rewrite A in E0. replace d0 with d by congruence. split; assumption.
Qed.
Print Assumptions C68_given_data.
(* Every function, with data from elsewhere (a file, another version of the library) that is accepted
   for the crystal and, turned, for the turned crystal. *)
Theorem C68_any_data : forall l q, orthogonal q ->
  (forall lib, l = Some lib -> forall c eps, niggli_reduce lib (mmul c q) eps = through (fun m => mmul m q) (niggli_reduce lib c eps)) ->
  forall cell atoms d, obtain_data l cell atoms (Data d) = Ok d ->
  obtain_data l (mmul cell q) atoms (Data (turn_data q d)) = Ok (turn_data q d) ->
  all_turn l q cell atoms (Data d) (Data (turn_data q d)).
Proof.
  intros l q O N cell atoms d A B. apply all_turn_of; auto.
  - destruct l as [lib|]; [|exact I]. apply N. reflexivity.
  - rewrite A, B. reflexivity.
  - intros d0 E0. rewrite A in E0. replace d0 with d by congruence. split; assumption.
Qed.
Print Assumptions C68_any_data.

(* A rotation by an angle with rational cosine, a library that turns with it, a crystal it answers for. *)
Definition rot : mat := mk (3 / 5) (4 / 5) 0 (- (4 / 5)) (3 / 5) 0 0 0 1.
Definition turning_lib : spglib_module :=
  {| get_symmetry_dataset := fun c _ _ _ _ => Some (Dataset 16 (mscale 2 mid) (mmul (mscale (/ 2) mid) c) [vzero] [1%Z]);
     find_primitive := fun _ _ _ _ _ => Some (mscale 2 mid, [vzero], [1%Z]);
     niggli_reduce := fun m _ => Ok m |}.
Example C68_case : orthogonal rot /\ (forall q, turns_with turning_lib q) /\
  forall cell, exists d new, get_spglib_data (Some turning_lib) cell one_atom default_symprec default_spglib_angle = Ok d /\
    get_conventional (Some turning_lib) cell one_atom "HPKOT" NoData = Ok (cell, new) /\
    get_conventional (Some turning_lib) (mmul cell rot) one_atom "HPKOT" NoData = Ok (mmul cell rot, new).
Proof.
  assert (O : orthogonal rot) by (unfold orthogonal, rot; vunfold; vcomp; field).
  assert (W : forall q, turns_with turning_lib q).
  { intros q. split; [|split]; intros; try reflexivity. unfold turning_lib, option_map, turn_dataset. cbn [get_symmetry_dataset ds_number ds_std_lattice ds_std_rotation_matrix ds_std_positions ds_std_types].
    rewrite mmul_assoc. reflexivity. }
  split; [exact O|]. split; [exact W|]. intros cell.
  assert (G : exists new, get_conventional (Some turning_lib) cell one_atom "HPKOT" NoData = Ok (cell, new)).
  { eexists. assert (E : mmul (mscale 2 mid) (mmul (mscale (/ 2) mid) cell) = cell) by (destruct cell as [[] [] []]; vunfold; vcomp; field).
    unfold get_conventional. cbn -[mmul mscale mid lower]. rewrite E. reflexivity. }
  destruct G as (new & G). eexists. exists new. split; [reflexivity|]. split; [exact G|]. destruct (C68_orientation turning_lib rot O (W rot) cell one_atom) as (C & _).
  rewrite C, G. reflexivity.
Qed.
(* The path of a face-centred cubic crystal and of the turned crystal, without the library. *)
Example C68_fcc_case : let c := mk 2 0 0 0 2 0 0 0 2 in
  exists d cell path pts, det cell <> 0 /\
    get_path_and_points None cell one_atom (Data d) "HPKOT" true false = Ok (path, pts) /\
    get_path_and_points None (mmul cell rot) one_atom (Data (turn_data rot d)) "HPKOT" true false =
      Ok (path, map (fun kv => (fst kv, vmat (snd kv) rot)) pts).
Proof.
  intros c. set (zs := [Zv 0 0 0; Zv 1 0 0; Zv 0 1 0; Zv 0 0 1]). set (d := crystal_data 225%Z "c" "F" t_F c zs). set (cell := mmul (tr t_F) c).
  assert (B : big c) by (unfold c; apply big_diag; lra).
  assert (SY : hpkot_get_extended_bl_symbol None cell one_atom (Data d) = Ok "cF2").
  { apply (C40_by_space_group None cell one_atom (Data d) d (crystal_obtain 225 "c" "F" t_F c zs None)); [right; left; reflexivity|]. unfold in_range. cbn. lia. }
  assert (PR : exists pts0, hpkot_get_points c "cF" "cF2" = Ok pts0 /\ processed cell d "HPKOT" c (rec_of cell) (map (fun kv => (fst kv, vmat (snd kv) (rec_of cell))) pts0)).
  { eexists. split; [unfold hpkot_get_points; rewrite (get_params_val _ B); reflexivity|].
    eapply (hpkot_crystal 225 "c" "F" c _ t_F "cF2"); [discriminate|reflexivity|unfold c; det_num|det_num|discriminate|unfold zs; count_points|number| |exact B| |reflexivity].
    + intros _. exact SY.
    + unfold hpkot_get_points. rewrite (get_params_val _ B). reflexivity. }
  destruct PR as (pts0 & T & O & _ & _ & (path & P)).
  exists d, cell, path. eexists. split; [unfold cell, c; det_num|]. split; [exact P|].
  assert (R : orthogonal rot) by apply C68_case.
  assert (A : obtain_data None (mmul cell rot) one_atom (Data (turn_data rot d)) = Ok (turn_data rot d)).
  { apply (obtain_own None (mmul cell rot) one_atom (turn_data rot d) (PList [PList [PInt 0; PInt 0; PInt 0]]) (PList [PInt 1]));
    [apply one_atom_valid|reflexivity|reflexivity|reflexivity|apply one_atom_types|reflexivity]. }
  destruct (C68_any_data None rot R ltac:(discriminate) cell one_atom d O A) as (_ & _ & _ & _ & _ & PT & _).
  rewrite PT, P. reflexivity.
Qed.
