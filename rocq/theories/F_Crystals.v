(* F_Crystals.v : concrete crystals, one atom at every point of a centred lattice.  They meet the
   hypotheses of the theorems on conventional and primitive cells and on k-points. *)
From Verif Require Import Base M_Strings M_Dict M_Numerical M_Geometry M_Cell M_Niggli M_Atoms T_Tables T_Points M_Spglib M_Conventional
  M_Primitive M_Variation M_Kpoints M_Path F_Geometry F_Strings F_Atoms F_Kpoints S_Crystal F_Conventional F_Primitive
  P_Conventional P_Monoclinic P_Primitive P_Variation P_Path.
Open Scope string_scope.
Open Scope list_scope.
Open Scope R_scope.

(* What spglib reports for a crystal given by its primitive cell (rows of m^T c) with one atom:
   conventional cell c with atoms at the points zs of the lattice, in the conventional basis. *)
Definition crystal_data (number : Z) (family centring : string) (m c : mat) (zs : list zvec) : spglib_data :=
  SpglibData (mmul (tr m) c) [vzero] [1%Z] (/ 100000) (-1) number family centring c
    (map (fun z => vmat (ofZv z) (tr m)) zs) (map (fun _ => 1%Z) zs) (mmul (tr m) c) [vzero] [1%Z].
Section Crystal.
  Context (number : Z) (family centring : string) (m c : mat) (zs : list zvec).
  Let d := crystal_data number family centring m c zs.
  Let cell := mmul (tr m) c.
  Lemma crystal_obtain spglib : obtain_data spglib cell one_atom (Data d) = Ok d.
  Proof.
    apply (obtain_own spglib cell one_atom d (PList [PList [PInt 0; PInt 0; PInt 0]]) (PList [PInt 1])).
    - apply one_atom_valid.
    - reflexivity.
    - reflexivity.
    - reflexivity.
    - apply one_atom_types.
    - reflexivity.
  Qed.
  Definition new_atoms (ps : list vec) : atoms_dict :=
    [("positions", pos_val ps); ("names", PList (map (fun _ => PStr "Fe1") ps)); ("spglib_types", PList (map (fun _ => PNpInt 1) ps))].
  Lemma make_ones {A} mapping ps (l : list A) : mapping 1%Z = Some 0%nat -> length ps = length l ->
    make_atoms mapping ps (map (fun _ => 1%Z) l) one_atom = Ok (new_atoms ps).
  Proof.
    intros M L.
    assert (E : forall l' : list A, mapM (fun t => match mapping t with Some i => py_item (PList [PStr "Fe1"]) i | None => Err KeyError end) (map (fun _ => 1%Z) l') = Ok (map (fun _ => PStr "Fe1") l')).
    { induction l' as [|x l' IH]; [reflexivity|]. cbn [map mapM]. rewrite M. change (py_item (PList [PStr "Fe1"]) 0) with (Ok (PStr "Fe1")). cbn [bind]. rewrite IH. reflexivity. }
    unfold make_atoms, one_atom. cbn [populate]. change (String.eqb "names" "positions") with false. change (String.eqb "positions" "positions") with true. cbv iota.
    rewrite E. cbn [bind populate]. unfold new_atoms. rewrite map_map.
    assert (X : forall (B : Type) (b : B) (l1 : list vec) (l2 : list A), length l1 = length l2 -> map (fun _ => b) l1 = map (fun _ => b) l2).
    { intros B b. induction l1; destruct l2; cbn; intros; try discriminate; f_equal; auto. }
    rewrite (X _ (PStr "Fe1") ps l L), (X _ (PNpInt 1) ps l L). reflexivity.
  Qed.
  (* conventional cell *)
  Definition points : list vec := map (fun z => vmat (ofZv z) (tr m)) zs.
  Lemma crystal_hpkot cv : lower cv = "hpkot" -> family <> "a" ->
    get_conventional None cell one_atom cv (Data d) = Ok (c, new_atoms points).
  Proof.
    intros L F. unfold get_conventional. rewrite crystal_obtain. cbn [bind]. unfold conventional_structure. rewrite L.
    change (String.eqb "hpkot" "spglib" || String.eqb "hpkot" "hpkot") with true. cbv iota. cbn [d crystal_data crystal_family].
    rewrite (proj2 (String.eqb_neq _ _) F). rewrite andb_false_r. cbn [bind d crystal_data conventional_cell conventional_positions conventional_types original_types].
    rewrite make_ones; [reflexivity|reflexivity|apply map_length].
  Qed.
  Lemma crystal_sc cv c' : lower cv = "sc" -> (family =? "h") && (centring =? "R") = false ->
    sc_conventional_no_hR c family centring (/ 10000) = Ok c' -> det c' <> 0 ->
    get_conventional None cell one_atom cv (Data d) = Ok (c', new_atoms (map (fun p => vmat (vmat p c) (minv_total c')) points)).
  Proof.
    intros L F E D. unfold get_conventional. rewrite crystal_obtain. cbn [bind]. unfold conventional_structure. rewrite L.
    change (String.eqb "sc" "spglib" || String.eqb "sc" "hpkot") with false. change (String.eqb "sc" "sc") with true. cbv iota.
    cbn [d crystal_data crystal_family centring_type conventional_cell]. rewrite F.
    replace (spglib_angle_or_default d) with (/ 10000).
    2: { unfold spglib_angle_or_default. cbn [d crystal_data angle_tolerance]. rewrite (proj2 (Reqb_true _ _) eq_refl). reflexivity. }
    rewrite E. cbn [bind d crystal_data conventional_positions]. unfold reexpress. rewrite (proj2 (minv_ok _ _) (conj D eq_refl)). cbn [bind d crystal_data conventional_types original_types].
    rewrite make_ones; [reflexivity|reflexivity|unfold points; rewrite !map_length; reflexivity].
  Qed.
  Lemma crystal_sc_hR cv c' : lower cv = "sc" -> (family =? "h") && (centring =? "R") = true ->
    sc_conventional_hR cell (/ 10000) (/ 100000) = Ok c' -> det c' <> 0 ->
    get_conventional None cell one_atom cv (Data d) = Ok (c', new_atoms [vmat (vmat vzero cell) (minv_total c')]).
  Proof.
    intros L F E D. unfold get_conventional. rewrite crystal_obtain. cbn [bind]. unfold conventional_structure. rewrite L.
    change (String.eqb "sc" "spglib" || String.eqb "sc" "hpkot") with false. change (String.eqb "sc" "sc") with true. cbv iota.
    cbn [d crystal_data crystal_family centring_type primitive_cell symprec]. rewrite F.
    replace (spglib_angle_or_default d) with (/ 10000).
    2: { unfold spglib_angle_or_default. cbn [d crystal_data angle_tolerance]. rewrite (proj2 (Reqb_true _ _) eq_refl). reflexivity. }
    fold cell. rewrite E. cbn [bind d crystal_data primitive_positions]. unfold reexpress. rewrite (proj2 (minv_ok _ _) (conj D eq_refl)). cbn [bind d crystal_data primitive_types original_types].
    change [1%Z] with (map (fun _ : nat => 1%Z) [0%nat]). rewrite make_ones; [reflexivity|reflexivity|reflexivity].
  Qed.
  (* primitive cell *)
  Lemma normal_ofZ z : normal_position (ofZv z) = V3 0 0 0.
  Proof.
    unfold normal_position, vmap, ofZv. cbn [vx vy vz].
    assert (X : forall i, mod1 (mod1 (round8 (IZR i))) = 0).
    { intros i. unfold round8. replace (IZR i * 100000000) with (IZR (i * 100000000)) by (rewrite mult_IZR; reflexivity). rewrite round_int.
      replace (IZR (i * 100000000) / 100000000) with (IZR i) by (rewrite mult_IZR; field).
      assert (M : forall j, mod1 (IZR j) = 0).
      { intros j. unfold mod1. rewrite (int_part_unique _ j) by lra. lra. }
      rewrite M. apply (M 0%Z). }
    rewrite !X. reflexivity.
  Qed.
  Lemma unique_ints (l : list zvec) rep : l <> [] -> rep = INR (length l) ->
    get_unique (map ofZv l) (map (fun _ => 1%Z) l) rep (/ 100000) = Ok ([V3 0 0 0], [1%Z]).
  Proof.
    intros NE ->. unfold get_unique. cbv zeta. rewrite map_map.
    assert (E : map (fun x => normal_position (ofZv x)) l = repeat (V3 0 0 0) (length l)).
    { clear. induction l; cbn [map repeat length]; [reflexivity|]. rewrite normal_ofZ, IHl. reflexivity. }
    rewrite E. rewrite INR_IZR_INZ, round_int. set (n := length l) in *.
    assert (SA : same_atoms (/ 100000) (V3 0 0 0) (V3 0 0 0) = true) by (apply same_refl; lra).
    assert (FL : forall k, filter (same_atoms (/ 100000) (V3 0 0 0)) (repeat (V3 0 0 0) k) = repeat (V3 0 0 0) k).
    { induction k; cbn [repeat filter]; [reflexivity|]. rewrite SA, IHk. reflexivity. }
    assert (FA : forallb (fun p => (n_equiv (/ 100000) (repeat (V3 0 0 0) n) p =? Z.of_nat n)%Z) (repeat (V3 0 0 0) n) = true).
    { apply forallb_forall. intros x I. apply repeat_spec in I. subst x. unfold n_equiv. rewrite FL, repeat_length. apply Z.eqb_refl. }
    rewrite FA. cbn [negb]. destruct l as [|z l]; [congruence|]. cbn [length] in n. subst n. cbn [repeat].
    rewrite map_length. cbn [length]. rewrite repeat_length, Nat.eqb_refl. cbn [negb].
    unfold enumerate. cbn [length seq combine unique_loop snd].
    assert (FI : forall k i, filter (fun jq : nat * vec => negb (same_atoms (/ 100000) (V3 0 0 0) (snd jq))) (combine (seq i k) (repeat (V3 0 0 0) k)) = []).
    { induction k; intros i; cbn [seq repeat combine filter snd]; [reflexivity|]. rewrite SA. cbn [negb]. apply IHk. }
    rewrite repeat_length, FI. cbn [map]. destruct (length l); reflexivity.
  Qed.
  Lemma crystal_primitive cv c' k ps : In (lower cv) ["hpkot"; "sc"] ->
    getitem (String.append family centring) (conversion_table (lower cv)) = Ok k -> det c' <> 0 -> det k <> 0 ->
    get_conventional None cell one_atom (lower cv) (Data d) = Ok (c', new_atoms ps) ->
    (exists l, l <> [] /\ ps = map (fun z => vmat (ofZv z) (tr k)) l /\ Rabs (/ det k) = INR (length l)) ->
    exists new, get_primitive None cell one_atom cv (Data d) = Ok (mmul (tr k) c', new).
  Proof.
    intros CV K D DK G (l & NE & -> & LN). unfold get_primitive. rewrite crystal_obtain. cbn [bind]. unfold primitive_structure. cbv zeta.
    assert (M1 : String.eqb (lower cv) "spglib" = false) by (destruct CV as [<-|[<-|[]]]; reflexivity).
    assert (M2 : mem (lower cv) ["hpkot"; "sc"] = true) by (apply mem_true; exact CV).
    rewrite M1, M2, G. cbn [bind].
    assert (M3 : (if lower cv =? "hpkot" then getitem (String.append (crystal_family d) (centring_type d)) HPKOT_CONVENTIONAL_TO_PRIMITIVE
       else if lower cv =? "sc" then getitem (String.append (crystal_family d) (centring_type d)) SC_CONVENTIONAL_TO_PRIMITIVE else Err PotentialBugError) = Ok k).
    { rewrite <- K. destruct CV as [<-|[<-|[]]]; reflexivity. }
    rewrite M3. cbn [bind]. unfold new_atoms.
    match goal with |- context [getitem "positions" ?x] => change (getitem "positions" x) with (Ok (pos_val (map (fun z => vmat (ofZv z) (tr k)) l))) end.
    match goal with |- context [getitem "spglib_types" ?x] => change (getitem "spglib_types" x) with (Ok (PList (map (fun _ : vec => PNpInt 1) (map (fun z => vmat (ofZv z) (tr k)) l)))) end.
    cbn [bind]. rewrite positions_of_val. cbn [bind]. unfold reexpress.
    assert (DP : det (mmul (tr k) c') <> 0) by (rewrite det_mmul, det_tr; intros Z; apply Rmult_integral in Z; tauto).
    rewrite (proj2 (minv_ok _ _) (conj DP eq_refl)). cbn [bind]. rewrite map_map.
    assert (E1 : map (fun x => vmat (vmat (vmat (ofZv x) (tr k)) c') (minv_total (mmul (tr k) c'))) l = map ofZv l).
    { apply map_ext. intros z. rewrite !vmat_mmul, <- mmul_assoc, minv_r, vmat_id by auto. reflexivity. }
    rewrite E1.
    assert (E2 : ints (PList (map (fun _ : vec => PNpInt 1) (map (fun z => vmat (ofZv z) (tr k)) l))) = map (fun _ => 1%Z) l).
    { rewrite map_map. clear. induction l; [reflexivity|]. cbn [map]. unfold ints in *. cbn in *. f_equal. exact IHl. }
    rewrite E2. change (symprec d) with (/ 100000). rewrite unique_ints; auto.
    - cbn [bind]. change [V3 0 0 0] with (map (fun _ : nat => V3 0 0 0) [0%nat]). change [1%Z] with (map (fun _ : nat => 1%Z) [0%nat]). rewrite make_ones; [|reflexivity|reflexivity]. cbn [bind]. eauto.
    - rewrite <- LN. f_equal. rewrite det_mmul, det_tr. field. auto.
  Qed.
  (* path and points, in Cartesian coordinates *)
  Lemma crystal_path spglib cv c' ca pts0 path0 prim pa r : In (lower cv) ["hpkot"; "sc"] -> In number (map Z.of_nat (seq 1 230)) ->
    get_conventional spglib cell one_atom cv (Data d) = Ok (c', ca) ->
    get_primitive spglib cell one_atom cv (Data d) = Ok (prim, pa) -> get_reciprocal prim = Ok r ->
    (if String.eqb (lower cv) "sc" then
       do v <- sc_get_variation spglib cell one_atom (Data d); do points <- sc_get_points c' (String.append family centring) v; do kpath <- lookup_path v; Ok (points, kpath)
     else
       do s <- hpkot_get_extended_bl_symbol spglib cell one_atom (Data d); do points <- hpkot_get_points c' (String.append family centring) s; do kpath <- getitem s HPKOT_DEFAULT_K_PATHS; Ok (points, kpath))
     = Ok (pts0, path0) ->
    get_path_and_points spglib cell one_atom (Data d) cv true false = Ok (path0, map (fun kv => (fst kv, vmat (snd kv) r)) pts0).
  Proof.
    intros CV NR G P R T. unfold get_path_and_points. rewrite crystal_obtain. cbn [bind]. rewrite G. cbn [bind]. rewrite P. cbn [bind].
    change (lattice_type d) with (String.append family centring).
    assert (ZG : exists b, zgetitem (space_group_number d) INVERSION_SYMMETRY = Ok b).
    { cbn [d crystal_data space_group_number]. clear - NR. apply in_map_iff in NR. destruct NR as (n & <- & I). apply in_seq in I.
      assert (X : forallb (fun n => match zgetitem (Z.of_nat n) INVERSION_SYMMETRY with Ok _ => true | Err _ => false end) (seq 1 230) = true) by (vm_compute; reflexivity).
      rewrite forallb_forall in X. specialize (X n (proj2 (in_seq _ _ _) I)). destruct (zgetitem (Z.of_nat n) INVERSION_SYMMETRY); [eauto|discriminate]. }
    destruct ZG as (b & ZG).
    assert (T' : (if lower cv =? "sc" then
       do v <- sc_get_variation spglib cell one_atom (Data d); do points <- sc_get_points c' (String.append family centring) v; do kpath <- lookup_path v; Ok (points, kpath)
     else if lower cv =? "hpkot" then
       do s <- hpkot_get_extended_bl_symbol spglib cell one_atom (Data d); do points <- hpkot_get_points c' (String.append family centring) s; do kpath <- getitem s HPKOT_DEFAULT_K_PATHS; Ok (points, kpath)
     else Err ConventionNotSupported) = Ok (pts0, path0)).
    { rewrite <- T. destruct CV as [<-|[<-|[]]]; reflexivity. }
    rewrite T'. cbn [bind]. rewrite R. cbn [bind]. unfold place_points. cbn [bind]. rewrite ZG. cbn [bind]. rewrite andb_false_r. reflexivity.
  Qed.
End Crystal.
