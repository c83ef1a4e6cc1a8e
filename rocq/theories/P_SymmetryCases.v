(* P_SymmetryCases.v : properties C70 and C71, a crystal that meets the hypotheses. *)
From Verif Require Import Base M_Strings M_Dict M_Numerical M_Geometry M_Cell M_Niggli M_Atoms T_Tables T_Points M_Spglib M_Conventional
  M_Primitive M_Variation M_Kpoints M_Path F_Geometry F_Voronoi F_Strings F_Atoms F_Kpoints S_Crystal F_Conventional F_Primitive
  P_Conventional P_Primitive P_Variation P_Symbol P_Path S_Zone F_Zone F_ZoneCells P_Zone F_Crystals P_ZoneCases S_Symmetry F_Symmetry P_ZonePath P_Symmetry.
Open Scope string_scope.
Open Scope list_scope.
Open Scope R_scope.

(* a face-centred cubic crystal with two different points W and W2 and a path with the step from X to U *)
Example C70_case : let c := mk 2 0 0 0 2 0 0 0 2 in
  exists d cell r pts path l k k', processed cell d "HPKOT" c r pts /\ conventional_shape "HPKOT" d c /\ plain_shape d c /\ det r <> 0 /\
  In ("W", k) pts /\ In ("W2", k') pts /\ letters "W" = letters "W2" /\ k <> k' /\
  get_path_and_points None cell one_atom (Data d) "HPKOT" true false = Ok (path, pts) /\ get_path_as_list path = Ok l /\ follows l "X" "U" /\ 0 <= symprec d.
Proof.
  intros c. crystal 225%Z "c" "F" t_F c [Zv 0 0 0; Zv 1 0 0; Zv 0 1 0; Zv 0 0 1]. assert (B : big c) by (unfold c; apply big_diag; lra).
  set (d := crystal_data _ _ _ _ _ _). set (cell := mmul (tr t_F) c). set (r := rec_of cell).
  assert (SY : hpkot_get_extended_bl_symbol None cell one_atom (Data d) = Ok "cF2").
  { apply (C40_by_space_group None _ one_atom (Data _) _ (crystal_obtain 225 "c" "F" t_F c _ None)); [right; left; reflexivity|]. unfold in_range. cbn. lia. }
  assert (PR : exists pts0, hpkot_table_70 = Ok pts0 /\ processed cell d "HPKOT" c r (map (fun kv => (fst kv, vmat (snd kv) r)) pts0)).
  { eexists. split; [reflexivity|].
    eapply (hpkot_crystal 225 "c" "F" c _ t_F "cF2"); [discriminate|reflexivity|unfold c; det_num|det_num|discriminate|count_points|number|intros _; exact SY|exact B| |reflexivity].
    unfold hpkot_get_points. rewrite (get_params_val _ B). reflexivity. }
  destruct PR as (pts0 & T & PR). unfold hpkot_table_70 in T. injection T as <-. pose proof PR as (OB & _ & (prim & pa & GP & R) & (path & P)).
  assert (DR := rec_det _ _ R).
  destruct (path_inv _ _ _ _ _ _ _ _ _ P) as (d' & pts0' & path0 & pc' & pa' & r' & pts1 & inv & D' & T & _ & _ & _ & _ & _ & E & _).
  assert (d' = d) by congruence. subst d'. cbn [negb] in E. rewrite andb_false_r in E. destruct E as (-> & _).
  apply (fun L => hpkot_path _ _ _ _ "HPKOT" _ _ "cF2" L T) in SY; [|reflexivity]. rename SY into T1. clear T. rename T1 into T.
  assert (L : exists l, get_path_as_list path0 = Ok l /\ follows l "X" "U").
  { assert (path0 = "GAMMA-X-U|K-GAMMA-L-W-X") by (cbv [getitem lookup HPKOT_DEFAULT_K_PATHS String.eqb Ascii.eqb Bool.eqb] in T; congruence). subst path0.
    eexists. split; [vm_compute; reflexivity|]. exists ["GAMMA"; "X"; "U"], ["GAMMA"], []. split; [left; reflexivity|reflexivity]. }
  destruct L as (l & L & FO). eexists. exists path0, l. eexists. eexists. split; [exact PR|].
  assert (CU : cubic c) by (destruct (norm_diag 2 2 2) as (_ & _ & _ & N1 & N2 & N3 & RA); try lra; unfold cubic, tetragonal, c; rewrite N1, N2, N3; auto).
  split; [left; cbn; auto|]. split; [left; cbn; auto|]. split; [exact DR|].
  split; [cbn [map fst snd]; do 3 right; left; reflexivity|]. split; [cbn [map fst snd]; do 4 right; left; reflexivity|]. split; [reflexivity|].
  split; [|split; [exact P|split; [exact L|split; [exact FO|cbn; lra]]]].
  intros E. cbn [fst snd] in E. apply vmat_cancel in E; auto. injection E. lra.
Qed.
