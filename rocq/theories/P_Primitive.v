(* P_Primitive.v : properties C37 and C38 (get_primitive). *)
From Verif Require Import Base M_Strings M_Dict M_Numerical M_Geometry M_Atoms T_Tables M_Spglib M_Conventional M_Primitive
  F_Geometry F_Niggli F_Voronoi F_Strings F_Atoms S_Crystal F_Conventional F_Primitive P_Conventional.
From Coq Require Import Sorted.
Open Scope string_scope.
Open Scope list_scope.
Open Scope R_scope.

(* ================= C37: the primitive lattice ================= *)
(* International Tables: the lattice points of a centred cell, relative coordinates *)
Definition centring_points (c : string) : list vec :=
  match c with
  | "P" => [V3 0 0 0]
  | "A" => [V3 0 0 0; V3 0 (1/2) (1/2)]
  | "C" => [V3 0 0 0; V3 (1/2) (1/2) 0]
  | "I" => [V3 0 0 0; V3 (1/2) (1/2) (1/2)]
  | "F" => [V3 0 0 0; V3 0 (1/2) (1/2); V3 (1/2) 0 (1/2); V3 (1/2) (1/2) 0]
  | "R" => [V3 0 0 0; V3 (2/3) (1/3) (1/3); V3 (1/3) (2/3) (2/3)]
  | _ => []
  end.
(* Which centring the conventional cell of the convention has.  SC turns the A-centred
   orthorhombic cell into a C-centred one (C33), and its rhombohedral conventional cell is the
   primitive one. *)
Definition cell_centring (convention centring : string) : string :=
  if String.eqb convention "sc" then
    if String.eqb centring "A" then "C" else if String.eqb centring "R" then "P" else centring
  else centring.

Definition centred (ts : list vec) (M : mat) : Prop :=
  (forall n, exists t z, In t ts /\ vmat (ofZv n) (tr M) = vadd t (ofZv z)) /\
  (forall t z, In t ts -> exists n, vadd t (ofZv z) = vmat (ofZv n) (tr M)) /\
  det M * INR (length ts) = 1.

Ltac ztac := cbv [ofZv vadd vmat tr mk dot col1 col2 col3 vx vy vz zx zy zz row1 row2 row3];
  f_equal; rewrite ?plus_IZR, ?minus_IZR, ?mult_IZR, ?opp_IZR, ?plus_IZR, ?minus_IZR, ?mult_IZR; lra.
Lemma even_odd n : exists m, n = (2 * m)%Z \/ n = (2 * m + 1)%Z.
Proof. destruct (Z.Even_or_Odd n) as [(m & ->)|(m & ->)]; eauto. Qed.

Lemma centred_P : centred (centring_points "P") (mk 1 0 0 0 1 0 0 0 1).
Proof.
  split; [|split].
  - intros [a b c]. exists (V3 0 0 0), (Zv a b c). split; [left; auto|]. ztac.
  - intros t [a b c] [<-|[]]. exists (Zv a b c). ztac.
  - vunfold. cbn. lra.
Qed.
Lemma centred_I : centred (centring_points "I") (mk (-1/2) (1/2) (1/2) (1/2) (-1/2) (1/2) (1/2) (1/2) (-1/2)).
Proof.
  split; [|split].
  - intros [a b c]. destruct (even_odd (a + b + c)) as (m & [E|E]).
    + exists (V3 0 0 0), (Zv (m - a) (m - b) (m - c)). split; [left; auto|].
      assert (Q : IZR a + IZR b + IZR c = 2 * IZR m) by (rewrite <- !plus_IZR, E, mult_IZR; auto). ztac.
    + exists (V3 (1/2) (1/2) (1/2)), (Zv (m - a) (m - b) (m - c)). split; [right; left; auto|].
      assert (Q : IZR a + IZR b + IZR c = 2 * IZR m + 1) by (rewrite <- !plus_IZR, E, plus_IZR, mult_IZR; auto). ztac.
  - intros t [a b c] [<-|[<-|[]]].
    + exists (Zv (b + c) (a + c) (a + b)). ztac.
    + exists (Zv (b + c + 1) (a + c + 1) (a + b + 1)). ztac.
  - vunfold. cbn. lra.
Qed.
Lemma centred_F : centred (centring_points "F") (mk 0 (1/2) (1/2) (1/2) 0 (1/2) (1/2) (1/2) 0).
Proof.
  split; [|split].
  - intros [a b c]. destruct (even_odd a) as (i & [-> | ->]), (even_odd b) as (j & [-> | ->]), (even_odd c) as (k & [-> | ->]).
    + exists (V3 0 0 0), (Zv (j + k) (i + k) (i + j)). split; [cbn; auto|]. ztac.
    + exists (V3 (1/2) (1/2) 0), (Zv (j + k) (i + k) (i + j)). split; [cbn; auto|]. ztac.
    + exists (V3 (1/2) 0 (1/2)), (Zv (j + k) (i + k) (i + j)). split; [cbn; auto|]. ztac.
    + exists (V3 0 (1/2) (1/2)), (Zv (j + k + 1) (i + k) (i + j)). split; [cbn; auto|]. ztac.
    + exists (V3 0 (1/2) (1/2)), (Zv (j + k) (i + k) (i + j)). split; [cbn; auto|]. ztac.
    + exists (V3 (1/2) 0 (1/2)), (Zv (j + k) (i + k + 1) (i + j)). split; [cbn; auto|]. ztac.
    + exists (V3 (1/2) (1/2) 0), (Zv (j + k) (i + k) (i + j + 1)). split; [cbn; auto|]. ztac.
    + exists (V3 0 0 0), (Zv (j + k + 1) (i + k + 1) (i + j + 1)). split; [cbn; auto|]. ztac.
  - intros t [a b c] [<-|[<-|[<-|[<-|[]]]]].
    + exists (Zv (b + c - a) (a + c - b) (a + b - c)). ztac.
    + exists (Zv (b + c - a + 1) (a + c - b) (a + b - c)). ztac.
    + exists (Zv (b + c - a) (a + c - b + 1) (a + b - c)). ztac.
    + exists (Zv (b + c - a) (a + c - b) (a + b - c + 1)). ztac.
  - vunfold. cbn. lra.
Qed.
Lemma centred_C : centred (centring_points "C") (mk (1/2) (1/2) 0 (-1/2) (1/2) 0 0 0 1).
Proof.
  split; [|split].
  - intros [a b c]. destruct (even_odd (a + b)) as (m & [E|E]).
    + exists (V3 0 0 0), (Zv m (m - a) c). split; [left; auto|].
      assert (Q : IZR a + IZR b = 2 * IZR m) by (rewrite <- !plus_IZR, E, mult_IZR; auto). ztac.
    + exists (V3 (1/2) (1/2) 0), (Zv m (m - a) c). split; [right; left; auto|].
      assert (Q : IZR a + IZR b = 2 * IZR m + 1) by (rewrite <- !plus_IZR, E, plus_IZR, mult_IZR; auto). ztac.
  - intros t [a b c] [<-|[<-|[]]].
    + exists (Zv (a - b) (a + b) c). ztac.
    + exists (Zv (a - b) (a + b + 1) c). ztac.
  - vunfold. cbn. lra.
Qed.
Lemma centred_mC : centred (centring_points "C") (mk (1/2) (-1/2) 0 (1/2) (1/2) 0 0 0 1).
Proof.
  split; [|split].
  - intros [a b c]. destruct (even_odd (a + b)) as (m & [E|E]).
    + exists (V3 0 0 0), (Zv (m - b) m c). split; [left; auto|].
      assert (Q : IZR a + IZR b = 2 * IZR m) by (rewrite <- !plus_IZR, E, mult_IZR; auto). ztac.
    + exists (V3 (1/2) (1/2) 0), (Zv (m - b) m c). split; [right; left; auto|].
      assert (Q : IZR a + IZR b = 2 * IZR m + 1) by (rewrite <- !plus_IZR, E, plus_IZR, mult_IZR; auto). ztac.
  - intros t [a b c] [<-|[<-|[]]].
    + exists (Zv (a + b) (b - a) c). ztac.
    + exists (Zv (a + b + 1) (b - a) c). ztac.
  - vunfold. cbn. lra.
Qed.
Lemma centred_A : centred (centring_points "A") (mk 0 0 1 (1/2) (1/2) 0 (-1/2) (1/2) 0).
Proof.
  split; [|split].
  - intros [a b c]. destruct (even_odd (a + b)) as (m & [E|E]).
    + exists (V3 0 0 0), (Zv c m (m - a)). split; [left; auto|].
      assert (Q : IZR a + IZR b = 2 * IZR m) by (rewrite <- !plus_IZR, E, mult_IZR; auto). ztac.
    + exists (V3 0 (1/2) (1/2)), (Zv c m (m - a)). split; [right; left; auto|].
      assert (Q : IZR a + IZR b = 2 * IZR m + 1) by (rewrite <- !plus_IZR, E, plus_IZR, mult_IZR; auto). ztac.
  - intros t [a b c] [<-|[<-|[]]].
    + exists (Zv (b - c) (b + c) a). ztac.
    + exists (Zv (b - c) (b + c + 1) a). ztac.
  - vunfold. cbn. lra.
Qed.
(* both tables, all entries but one *)
Lemma tables_centred cv fa ce m : In cv ["hpkot"; "sc"] ->
  getitem (String.append fa ce) (if String.eqb cv "hpkot" then HPKOT_CONVENTIONAL_TO_PRIMITIVE else SC_CONVENTIONAL_TO_PRIMITIVE) = Ok m ->
  In fa ["c"; "t"; "o"; "h"; "m"; "a"] -> In ce ["P"; "F"; "I"; "A"; "C"; "R"] ->
  (cv = "hpkot" /\ fa = "h" /\ ce = "R") \/ centred (centring_points (cell_centring cv ce)) m.
Proof.
  intros CV G FA CE.
  cbn [In] in CV, FA, CE.
  repeat match goal with H : _ \/ _ |- _ => destruct H as [H|H] | H : False |- _ => destruct H end; subst;
  cbv [getitem lookup String.eqb Ascii.eqb Bool.eqb String.append HPKOT_CONVENTIONAL_TO_PRIMITIVE SC_CONVENTIONAL_TO_PRIMITIVE] in G;
  try discriminate G; injection G as <-;
  first [left; repeat split; reflexivity
        | right; first [exact centred_P | exact centred_I | exact centred_F | exact centred_C | exact centred_mC | exact centred_A]].
Qed.

Definition conversion_table (cv : string) : dict mat :=
  if String.eqb cv "hpkot" then HPKOT_CONVENTIONAL_TO_PRIMITIVE else SC_CONVENTIONAL_TO_PRIMITIVE.
(* what an accepted call with one of the two computed conventions has done *)
Lemma get_primitive_inv spglib cell atoms cv arg d pc new :
  obtain_data spglib cell atoms arg = Ok d -> In (lower cv) ["hpkot"; "sc"] ->
  get_primitive spglib cell atoms cv arg = Ok (pc, new) ->
  exists cc catoms m v cps qs tv ps ts,
    get_conventional spglib cell atoms (lower cv) (Data d) = Ok (cc, catoms) /\
    getitem (String.append (crystal_family d) (centring_type d)) (conversion_table (lower cv)) = Ok m /\
    pc = mmul (tr m) cc /\ det pc <> 0 /\
    lookup "positions" catoms = Some v /\ positions_of v = Ok cps /\
    lookup "spglib_types" catoms = Some tv /\
    Forall2 (fun p q => vmat q pc = vmat p cc) cps qs /\
    get_unique qs (ints tv) (Rabs (det cc / det pc)) (symprec d) = Ok (ps, ts) /\
    make_atoms (first_index (original_types d) 0) ps ts atoms = Ok new.
Proof.
  intros D L H. unfold get_primitive in H. rewrite D in H. cbn [bind] in H.
  apply bind_ok in H. destruct H as ([[c ps] ts] & S & H). apply bind_ok in H. destruct H as (n & N & H). injection H as <- <-.
  unfold primitive_structure in S. cbv zeta in S. unfold conversion_table.
  assert (NS : String.eqb (lower cv) "spglib" = false) by (destruct L as [<-|[<-|[]]]; reflexivity). rewrite NS in S.
  rewrite (proj2 (mem_true _ _) L) in S.
  apply bind_ok in S. destruct S as ([cc catoms] & C & S). apply bind_ok in S. destruct S as (m & M & S).
  apply bind_ok in S. destruct S as (v & V & S). apply bind_ok in S. destruct S as (cps & P & S).
  apply bind_ok in S. destruct S as (qs & Q & S). apply bind_ok in S. destruct S as (tv & TV & S).
  apply bind_ok in S. destruct S as ([ps' ts'] & U & S). injection S as <- <- <-.
  exists cc, catoms, m, v, cps, qs, tv, ps', ts'. split; auto. split.
  { destruct L as [E|[E|[]]]; rewrite <- E in *; exact M. }
  split; auto. split.
  { unfold reexpress in Q. apply bind_ok in Q. destruct Q as (i & I & _). apply minv_ok in I. tauto. }
  unfold getitem in V, TV. destruct (lookup "positions" catoms); [|discriminate].
  destruct (lookup "spglib_types" catoms); [|discriminate]. injection V as ->. injection TV as ->.
  split; auto. split; auto. split; auto. split; [apply reexpress_ok; auto|]. auto.
Qed.
Definition families : list string := ["c"; "t"; "o"; "h"; "m"; "a"].
Definition centrings : list string := ["P"; "F"; "I"; "A"; "C"; "R"].
(* The primitive lattice is exactly the conventional lattice together with its centring points, and
   its volume is the conventional one divided by their number.  Only the HPKOT rhombohedral lattice
   is left out. *)
Theorem C37_primitive_lattice : forall spglib cell atoms cv arg d pc new,
  obtain_data spglib cell atoms arg = Ok d -> In (lower cv) ["hpkot"; "sc"] ->
  In (crystal_family d) families -> In (centring_type d) centrings ->
  ~ (lower cv = "hpkot" /\ crystal_family d = "h" /\ centring_type d = "R") ->
  get_primitive spglib cell atoms cv arg = Ok (pc, new) ->
  exists cc catoms, get_conventional spglib cell atoms cv (Data d) = Ok (cc, catoms) /\
    (forall x, in_lattice pc x <->
       exists t n, In t (centring_points (cell_centring (lower cv) (centring_type d))) /\ x = vmat (vadd t (ofZv n)) cc) /\
    det pc * INR (length (centring_points (cell_centring (lower cv) (centring_type d)))) = det cc.
Proof.
  intros spglib cell atoms cv arg d pc new D L FA CE NR H.
  destruct (get_primitive_inv _ _ _ _ _ _ _ _ D L H) as (cc & catoms & m & v & cps & qs & tv & ps & ts & C & M & P & _).
  exists cc, catoms. split.
  { rewrite <- C. apply (C32_convention_names spglib cell atoms (Data d) d).
    - apply get_conventional_inv in C. destruct C as (d' & _ & _ & O & _ & _).
      unfold obtain_data in O |- *. unbind O. rewrite H0. cbn [bind]. unbind O. rewrite H1. reflexivity.
    - destruct L as [<-|[<-|[]]]; reflexivity. }
  destruct (tables_centred (lower cv) _ _ _ L M FA CE) as [Q|(A & B & DT)]; [contradiction|].
  subst pc. split.
  - intros x. unfold in_lattice. split.
    + intros (n & ->). destruct (A n) as (t & z & T & E). exists t, z. split; auto. rewrite <- vmat_mmul, E. reflexivity.
    + intros (t & z & T & ->). destruct (B t z T) as (n & E). exists n. rewrite <- vmat_mmul, E. reflexivity.
  - rewrite det_mmul, det_tr, Rmult_assoc, (Rmult_comm (det cc)), <- Rmult_assoc, DT. lra.
Qed.
Print Assumptions C37_primitive_lattice.
(* "spglib": the primitive cell of the data is returned unchanged *)
Theorem C37_spglib_cell : forall spglib cell atoms cv arg d pc new,
  obtain_data spglib cell atoms arg = Ok d -> lower cv = "spglib" ->
  get_primitive spglib cell atoms cv arg = Ok (pc, new) ->
  pc = primitive_cell d /\ (NoDup (keys atoms) -> exists v, lookup "positions" new = Some v /\ positions_of v = Ok (primitive_positions d)).
Proof.
  intros spglib cell atoms cv arg d pc new D L H. unfold get_primitive, primitive_structure in H. rewrite D in H. cbn [bind] in H.
  cbv zeta in H. rewrite L in H. change (String.eqb "spglib" "spglib") with true in H. cbn [bind] in H.
  apply bind_ok in H. destruct H as (n & N & H). injection H as <- <-. split; auto.
  intros ND. apply make_atoms_spec in N; auto. destruct N as (P & _). eexists; split; [exact P|apply positions_of_val].
Qed.
Print Assumptions C37_spglib_cell.
(* The HPKOT rhombohedral case: for every input that is accepted the "primitive" cell is larger than
   the conventional one. *)
Theorem C37_hpkot_hR_volume : forall spglib cell atoms cv arg d pc new,
  obtain_data spglib cell atoms arg = Ok d -> lower cv = "hpkot" ->
  crystal_family d = "h" -> centring_type d = "R" ->
  get_primitive spglib cell atoms cv arg = Ok (pc, new) ->
  det pc = 9 / 8 * det (conventional_cell d) /\
  ~ (forall x, in_lattice (conventional_cell d) x -> in_lattice pc x).
Proof.
  intros spglib cell atoms cv arg d pc new D L FA CE H.
  destruct (get_primitive_inv _ _ _ _ _ _ _ _ D ltac:(rewrite L; cbn; auto) H)
    as (cc & catoms & m & v & cps & qs & tv & ps & ts & C & M & P & DP & _).
  assert (CC : cc = conventional_cell d).
  { rewrite L in C. apply get_conventional_inv in C. destruct C as (d' & ps' & ts' & O & S & _).
    assert (d' = d) by (unfold obtain_data in O; unbind O; unbind O; congruence). subst d'.
    unfold conventional_structure in S. cbv zeta in S. change (lower "hpkot") with "hpkot" in S.
    rewrite FA in S. change (String.eqb "hpkot" "spglib" || String.eqb "hpkot" "hpkot") with true in S.
    change (String.eqb "hpkot" "hpkot" && String.eqb "h" "a") with false in S. cbv iota in S. congruence. }
  subst cc. rewrite FA, CE, L in M.
  cbv [getitem lookup String.eqb Ascii.eqb Bool.eqb String.append HPKOT_CONVENTIONAL_TO_PRIMITIVE conversion_table] in M.
  injection M as <-. split.
  - rewrite P, det_mmul, det_tr. vunfold. field.
  - intros Q. assert (DC : det (conventional_cell d) <> 0).
    { intros E. apply DP. rewrite P, det_mmul, E. lra. }
    (* the first lattice vector *)
    destruct (Q (vmat (ofZv (Zv 1 0 0)) (conventional_cell d))) as (n & E); [exists (Zv 1 0 0); reflexivity|].
    rewrite P, <- vmat_mmul in E. apply vmat_cancel in E; auto.
    destruct n as [a b c]. revert E. cbv [ofZv vmat tr mk dot col1 col2 col3 vx vy vz zx zy zz row1 row2 row3].
    intros E. injection E as E1 E2 E3.
    (* a = 8/9 (...) *)
    assert (T : 9 * IZR a = 6).
    { lra. }
    rewrite <- (mult_IZR 9 a) in T. apply eq_IZR in T. lia.
Qed.
Print Assumptions C37_hpkot_hR_volume.

(* ... and the call is accepted for every rhombohedral crystal with one atom in the primitive cell,
   whatever its hexagonal conventional cell *)
Definition obverse := mk (2/3) (1/3) (1/3) (-1/3) (1/3) (1/3) (-1/3) (-2/3) (1/3).
Definition rhombohedral_data (cc : mat) : spglib_data :=
  SpglibData (mmul obverse cc) [vzero] [1%Z] (/ 100000) (-1) 166 "h" "R"
    cc [V3 0 0 0; V3 (2/3) (1/3) (1/3); V3 (1/3) (2/3) (2/3)] [1%Z; 1%Z; 1%Z] (mmul obverse cc) [vzero] [1%Z].
Lemma vmat_via p q A cc : det (mmul A cc) <> 0 -> vmat q A = p -> vmat (vmat p cc) (minv_total (mmul A cc)) = q.
Proof. intros D <-. rewrite (vmat_mmul q A cc), vmat_mmul, minv_r by auto. apply vmat_id. Qed.
Lemma coord_0 : mod1 (mod1 (round8 0)) = 0.
Proof.
  unfold round8. replace (0 * 100000000) with 0 by ring. rewrite (round_int 0).
  replace (0 / 100000000) with 0 by field. rewrite !(mod1_small 0) by lra. reflexivity.
Qed.
Lemma coord_23 : mod1 (mod1 (round8 (2 / 3))) = 66666667 / 100000000.
Proof.
  unfold round8. rewrite (round_unique _ 66666667) by (apply Rabs_def1; lra).
  rewrite !(mod1_small (66666667 / 100000000)) by lra. reflexivity.
Qed.
Lemma far p q tol : tol * tol < dot (vsub p q) (vsub p q) -> same_atoms tol p q = false.
Proof.
  intros H. unfold same_atoms. apply Rleb_false. apply Rnot_le_lt. intros L. pose proof (norm_sqr (vsub p q)) as N.
  pose proof (norm_nonneg (vsub p q)). nra.
Qed.
Theorem C37_hpkot_hR_accepted : forall cc, det cc <> 0 ->
  let cell := mmul obverse cc in
  let d := rhombohedral_data cc in
  obtain_data None cell one_atom (Data d) = Ok d /\
  det (primitive_cell d) * 3 = det (conventional_cell d) /\
  exists pc new, get_primitive None cell one_atom "HPKOT" (Data d) = Ok (pc, new) /\
    det pc = 9 / 8 * det (conventional_cell d).
Proof.
  intros cc D cell d.
  assert (O : obtain_data None cell one_atom (Data d) = Ok d).
  { apply (obtain_own None cell one_atom d (PList [PList [PInt 0; PInt 0; PInt 0]]) (PList [PInt 1])); try reflexivity. }
  split; auto. split; [unfold d, rhombohedral_data; cbn [primitive_cell conventional_cell]; rewrite det_mmul; unfold obverse; vunfold; field|].
  assert (X : exists pc new, get_primitive None cell one_atom "HPKOT" (Data d) = Ok (pc, new)).
  { unfold get_primitive. rewrite O. cbn [bind]. unfold primitive_structure. cbv zeta. change (lower "HPKOT") with "hpkot".
    change (String.eqb "hpkot" "spglib") with false. change (mem "hpkot" ["hpkot"; "sc"]) with true. cbv iota.
    unfold get_conventional. rewrite O. cbn [bind].
    change (conventional_structure (lib_niggli None) d "hpkot") with (Ok (cc, conventional_positions d, conventional_types d)).
    cbn [bind]. 
    change (make_atoms (last_index (original_types d) 0) (conventional_positions d) (conventional_types d) one_atom) with
      (Ok [("positions", pos_val (conventional_positions d)); ("names", PList [PStr "Fe1"; PStr "Fe1"; PStr "Fe1"]);
           ("spglib_types", PList [PNpInt 1; PNpInt 1; PNpInt 1])]).
    cbn [bind]. change (String.eqb "hpkot" "hpkot") with true. cbv iota.
    set (A := mk 1 (-1/2) (-1/2) (1/2) (1/2) (-1) (1/2) (1/2) (1/2)).
    change (getitem (String.append (crystal_family d) (centring_type d)) HPKOT_CONVENTIONAL_TO_PRIMITIVE) with (Ok A). cbn [bind].
    match goal with |- context [getitem "positions" ?x] => change (getitem "positions" x) with (Ok (pos_val (conventional_positions d))) end.
    cbn [bind]. rewrite positions_of_val. cbn [bind].
    assert (DA : det (tr A) = 9 / 8) by (unfold A; vunfold; field).
    assert (DP : det (mmul (tr A) cc) <> 0) by (rewrite det_mmul, DA; nra).
    unfold reexpress. rewrite (proj2 (minv_ok _ _) (conj DP eq_refl)). cbn [bind].
    match goal with |- context [getitem "spglib_types" ?x] => change (getitem "spglib_types" x) with (Ok (PList [PNpInt 1; PNpInt 1; PNpInt 1])) end.
    cbn [bind]. change (ints (PList [PNpInt 1; PNpInt 1; PNpInt 1])) with [1%Z; 1%Z; 1%Z].
    assert (RP : Rabs (det cc / det (mmul (tr A) cc)) = 8 / 9).
    { rewrite det_mmul, DA. replace (det cc / (9 / 8 * det cc)) with (8 / 9) by (field; auto). apply Rabs_right. lra. }
    rewrite RP. cbn [d rhombohedral_data conventional_positions symprec map].
    rewrite (vmat_via (V3 0 0 0) (V3 0 0 0)) by (auto; unfold A; vunfold; f_equal; field).
    rewrite (vmat_via (V3 (2/3) (1/3) (1/3)) (V3 (2/3) 0 0)) by (auto; unfold A; vunfold; f_equal; field).
    rewrite (vmat_via (V3 (1/3) (2/3) (2/3)) (V3 (2/3) (2/3) 0)) by (auto; unfold A; vunfold; f_equal; field).
    unfold get_unique. cbv zeta. cbn [map]. unfold normal_position, vmap. cbn [vx vy vz]. rewrite coord_0, coord_23.
    rewrite (round_unique (8 / 9) 1) by (apply Rabs_def1; lra).
    cbn [forallb].
    set (P := V3 0 0 0). set (Q := V3 (66666667 / 100000000) 0 0). set (S := V3 (66666667 / 100000000) (66666667 / 100000000) 0).
    set (tol := / 100000).
    assert (S1 : same_atoms tol P Q = false) by (apply far; unfold tol, P, Q; vunfold; lra).
    assert (S2 : same_atoms tol P S = false) by (apply far; unfold tol, P, S; vunfold; lra).
    assert (S3 : same_atoms tol Q S = false) by (apply far; unfold tol, S, Q; vunfold; lra).
    assert (S4 : same_atoms tol Q P = false) by (rewrite same_sym; auto).
    assert (S5 : same_atoms tol S P = false) by (rewrite same_sym; auto).
    assert (S6 : same_atoms tol S Q = false) by (rewrite same_sym; auto).
    assert (T : 0 <= tol) by (unfold tol; lra).
    unfold n_equiv. cbn [filter]. rewrite S1, S2, S3, S4, S5, S6, !same_refl by auto. cbn [length].
    change (Z.of_nat 1 =? 1)%Z with true. change (3 =? 3)%nat with true. cbn [andb negb].
    change (enumerate [P; Q; S]) with [(0%nat, P); (1%nat, Q); (2%nat, S)].
    cbn [unique_loop filter snd]. rewrite S1, S2. cbn [negb filter snd unique_loop]. rewrite S3. cbn [negb filter snd unique_loop].
    cbn [at_indices map nth_error concat app bind].
    change (make_atoms (first_index (original_types d) 0) [P; Q; S] [1%Z; 1%Z; 1%Z] one_atom) with
      (Ok [("positions", pos_val [P; Q; S]); ("names", PList [PStr "Fe1"; PStr "Fe1"; PStr "Fe1"]);
           ("spglib_types", PList [PNpInt 1; PNpInt 1; PNpInt 1])]).
    cbn [bind]. eauto. }
  destruct X as (pc & new & H). exists pc, new. split; auto.
  apply (C37_hpkot_hR_volume None cell one_atom "HPKOT" (Data d) d pc new O); auto.
Qed.
Print Assumptions C37_hpkot_hR_accepted.
(* hence the claim about the volume is false of the program *)
Theorem C37_hpkot_hR_volume_refuted : exists cell d pc new,
  obtain_data None cell one_atom (Data d) = Ok d /\ crystal_family d = "h" /\ centring_type d = "R" /\
  get_primitive None cell one_atom "HPKOT" (Data d) = Ok (pc, new) /\
  det pc * 3 <> det (conventional_cell d) /\ Rabs (det (conventional_cell d)) < Rabs (det pc).
Proof.
  set (cc := mk 2 0 0 (-1) (sqrt 3) 0 0 0 7).
  assert (Q : 0 < sqrt 3) by (apply sqrt_lt_R0; lra).
  assert (D : det cc = 14 * sqrt 3) by (unfold cc; vunfold; ring).
  destruct (C37_hpkot_hR_accepted cc) as (O & _ & pc & new & H & V); [lra|].
  exists (mmul obverse cc), (rhombohedral_data cc), pc, new. do 4 (split; auto).
  change (conventional_cell (rhombohedral_data cc)) with cc in *. rewrite V. split; [lra|].
  rewrite !Rabs_right; lra.
Qed.
Print Assumptions C37_hpkot_hR_volume_refuted.

(* ================= C38: the primitive atoms ================= *)
Lemma first_index_spec l : forall i t j, first_index l i t = Some j ->
  (i <= j)%nat /\ nth_error l (j - i) = Some t /\ forall j', (j' < j - i)%nat -> nth_error l j' <> Some t.
Proof.
  induction l as [|u l IH]; intros i t j H; cbn [first_index] in H; [discriminate|].
  destruct (Z.eqb_spec t u) as [->|NE].
  - injection H as <-. split; auto. rewrite Nat.sub_diag. split; auto. intros; lia.
  - apply IH in H. destruct H as (A & B & C). split; [lia|]. replace (j - i)%nat with (S (j - S i)) by lia. split; auto.
    intros [|j'] J; cbn [nth_error]; [congruence|]. apply C. lia.
Qed.
Lemma first_items_ints l v ts r : ints v = l -> items_by (first_index l 0) v ts r -> map int_of r = ts.
Proof.
  intros E H. induction H as [|t x ts r (j & J & X) _ IH]; [reflexivity|]. cbn [map]. f_equal; auto.
  apply first_index_spec in J. destruct J as (_ & J & _). rewrite Nat.sub_0_r, <- E in J. unfold ints in J.
  rewrite nth_error_map, X in J. cbn in J. congruence.
Qed.
Lemma Forall2_nth {A B} (P : A -> B -> Prop) l l' i y : Forall2 P l l' -> nth_error l' i = Some y -> exists x, nth_error l i = Some x /\ P x y.
Proof.
  intros H. revert i. induction H; intros [|i] E; try discriminate; cbn in *; eauto. injection E as <-. eauto.
Qed.
Lemma Forall2_nth' {A B} (P : A -> B -> Prop) l l' i x : Forall2 P l l' -> nth_error l i = Some x -> exists y, nth_error l' i = Some y /\ P x y.
Proof.
  intros H. revert i. induction H; intros [|i] E; try discriminate; cbn in *; eauto. injection E as <-. eauto.
Qed.
Lemma sorted_nth_inj idx i j a : StronglySorted lt idx -> nth_error idx i = Some a -> nth_error idx j = Some a -> i = j.
Proof.
  intros S. revert i j. induction S as [|x l S IH F]; intros i j I J; [destruct i; discriminate|].
  rewrite Forall_forall in F. destruct i as [|i], j as [|j]; cbn in *; auto.
  - injection I as ->. apply nth_error_In, F in J. lia.
  - injection J as ->. apply nth_error_In, F in I. lia.
Qed.

(* An atom at p of the primitive cell stands for the atom at q of the conventional one: up to a
   primitive lattice vector they differ by at most r (in relative coordinates of the primitive cell). *)
Definition stands_for (r : R) (pc cc : mat) (p q : vec) : Prop :=
  exists n e, vmat q cc = vmat (vadd (vadd p (ofZv n)) e) pc /\ norm e <= r.
Lemma normal_stands pc cc p q : vmat q pc = vmat p cc -> stands_for (/ 100000000) pc cc (normal_position q) p.
Proof.
  intros E. destruct (normal_spec q) as (_ & n & C). exists n, (vsub q (vadd (normal_position q) (ofZv n))). split.
  - rewrite <- E. f_equal. generalize (normal_position q), (ofZv n). clear. intros a b. vring.
  - replace (/ 100000000) with (2 * / 200000000) by field. apply coords_norm; auto. lra.
Qed.
Lemma stands_for_close tol pc cc p p' q : stands_for (/ 100000000) pc cc p q -> norm (vsub p' p) <= tol ->
  stands_for (tol + / 100000000) pc cc p' q.
Proof.
  intros (n & e & E & N) H. exists n, (vadd (vsub p p') e). split.
  - rewrite E. f_equal. generalize (ofZv n). clear. intros b. vring.
  - eapply Rle_trans; [apply norm_triangle|]. replace (vsub p p') with (vneg (vsub p' p)) by vring. rewrite norm_neg. lra.
Qed.
Theorem C38_representatives : forall spglib cell atoms cv arg d pc new,
  NoDup (keys atoms) -> obtain_data spglib cell atoms arg = Ok d -> In (lower cv) ["hpkot"; "sc"] -> 0 <= symprec d ->
  get_primitive spglib cell atoms cv arg = Ok (pc, new) ->
  exists cc catoms cv' ctv cps pv tv ps,
    get_conventional spglib cell atoms (lower cv) (Data d) = Ok (cc, catoms) /\
    lookup "positions" catoms = Some cv' /\ positions_of cv' = Ok cps /\ lookup "spglib_types" catoms = Some ctv /\
    lookup "positions" new = Some pv /\ positions_of pv = Ok ps /\ lookup "spglib_types" new = Some tv /\
    length (ints tv) = length ps /\
    (* every primitive atom is in the cell and stands for a conventional atom of the same type *)
    (forall k p t, nth_error ps k = Some p -> nth_error (ints tv) k = Some t ->
       in_unit_cell p /\ exists i q, nth_error cps i = Some q /\ nth_error (ints ctv) i = Some t /\ stands_for (/ 100000000) pc cc p q) /\
    (* every conventional atom is represented *)
    (forall i q, nth_error cps i = Some q -> exists k p, nth_error ps k = Some p /\ stands_for (symprec d + / 100000000) pc cc p q) /\
    (* by no two of them: different primitive atoms are apart *)
    (forall k l p q, k <> l -> nth_error ps k = Some p -> nth_error ps l = Some q -> symprec d < norm (vsub p q)).
Proof.
  intros spglib cell atoms cv arg d pc new ND D L SP H.
  destruct (get_primitive_inv _ _ _ _ _ _ _ _ D L H) as (cc & catoms & m & v & cps & qs & ctv & ps & ts & C & M & P & DP & V & PV & T & F & U & MA).
  apply get_unique_spec in U; auto. destruct U as (LT & idx & SS & FP & FT & AP & CO & _).
  destruct (make_atoms_spec _ _ _ _ _ ND MA) as (NP & I & TN & _).
  assert (X : exists tv, lookup "spglib_types" new = Some tv /\ ints tv = ts).
  { destruct (lookup "spglib_types" atoms) as [w|] eqn:LK.
    - destruct (I "spglib_types" w) as (l & L' & IB); [discriminate|exact LK|]. exists (PList l). split; auto.
      unfold ints at 1. cbn [elements]. eapply first_items_ints; [|eauto]. eapply obtain_spglib_types; eauto.
    - exists (PList (map PNpInt ts)). split; [apply TN; auto|]. apply ints_np. }
  destruct X as (tv & TV & TE).
  exists cc, catoms, v, ctv, cps, (pos_val ps), tv, ps. do 4 (split; auto). split; auto. split; [apply positions_of_val|]. split; auto.
  rewrite TE. split; [rewrite <- (Forall2_len _ _ _ FT), <- (Forall2_len _ _ _ FP); auto|].
  split; [|split].
  - intros k p t KP KT. destruct (Forall2_nth _ _ _ _ _ FP KP) as (i & KI & q & Q & ->).
    destruct (Forall2_nth _ _ _ _ _ FT KT) as (i' & KI' & TT). assert (i' = i) by congruence. subst i'.
    split; [apply normal_spec|]. destruct (Forall2_nth _ _ _ _ _ F Q) as (q0 & Q0 & E).
    exists i, q0. split; auto. split; auto. apply normal_stands; auto.
  - intros i q Q. destruct (Forall2_nth' _ _ _ _ _ F Q) as (q' & Q' & E).
    destruct (CO _ _ Q') as (j & p & J & _ & PJ & NJ). apply In_nth_error in J. destruct J as (k & K).
    destruct (Forall2_nth' _ _ _ _ _ FP K) as (p' & KP & q2 & Q2 & ->). assert (q2 = p) by congruence. subst q2.
    exists k, (normal_position p). split; auto. eapply stands_for_close; [apply normal_stands; eauto|auto].
  - intros k l p q NE K KL. destruct (Forall2_nth _ _ _ _ _ FP K) as (i & KI & p0 & P0 & ->).
    destruct (Forall2_nth _ _ _ _ _ FP KL) as (j & KJ & q0 & Q0 & ->). apply (AP i j p0 q0); auto.
    + eapply nth_error_In; eauto.
    + eapply nth_error_In; eauto.
    + intros ->. apply NE. eapply sorted_nth_inj; eauto.
Qed.
Print Assumptions C38_representatives.
(* If the wrapped atoms form clear clusters (closeness is transitive) then exactly the expected
   fraction of the atoms is kept. *)
Theorem C38_number_of_atoms : forall spglib cell atoms cv arg d pc new,
  NoDup (keys atoms) -> obtain_data spglib cell atoms arg = Ok d -> In (lower cv) ["hpkot"; "sc"] -> 0 <= symprec d ->
  In (crystal_family d) families -> In (centring_type d) centrings ->
  ~ (lower cv = "hpkot" /\ crystal_family d = "h" /\ centring_type d = "R") ->
  get_primitive spglib cell atoms cv arg = Ok (pc, new) ->
  exists cc catoms cv' cps qs pv ps,
    get_conventional spglib cell atoms (lower cv) (Data d) = Ok (cc, catoms) /\
    lookup "positions" catoms = Some cv' /\ positions_of cv' = Ok cps /\
    lookup "positions" new = Some pv /\ positions_of pv = Ok ps /\
    (* qs: the conventional atoms in the basis of the primitive cell *)
    Forall2 (fun p q => vmat q pc = vmat p cc) cps qs /\
    ((forall x y z, In x qs -> In y qs -> In z qs ->
        norm (vsub (normal_position x) (normal_position y)) <= symprec d ->
        norm (vsub (normal_position y) (normal_position z)) <= symprec d ->
        norm (vsub (normal_position x) (normal_position z)) <= symprec d) ->
     length cps = (length (centring_points (cell_centring (lower cv) (centring_type d))) * length ps)%nat).
Proof.
  intros spglib cell atoms cv arg d pc new ND D L SP FA CE NR H.
  destruct (get_primitive_inv _ _ _ _ _ _ _ _ D L H) as (cc & catoms & m & v & cps & qs & ctv & ps & ts & C & M & P & DP & V & PV & T & F & U & MA).
  apply get_unique_spec in U; auto. destruct U as (_ & idx & _ & _ & _ & _ & _ & _ & N).
  destruct (make_atoms_spec _ _ _ _ _ ND MA) as (NP & _).
  exists cc, catoms, v, cps, qs, (pos_val ps), ps. do 4 (split; auto). split; [apply positions_of_val|]. split; auto.
  intros TR. apply N in TR. rewrite (Forall2_len _ _ _ F).
  destruct (tables_centred (lower cv) _ _ _ L M FA CE) as [Q|(_ & _ & DT)]; [contradiction|].
  set (n := length (centring_points _)) in *.
  assert (DM : det pc = det m * det cc) by (rewrite P, det_mmul, det_tr; auto).
  assert (R : Rabs (det cc / det pc) = INR n).
  { assert (MZ : det m <> 0) by (intros Z; rewrite Z in DT; lra).
    assert (CZ : det cc <> 0) by (intros Z; apply DP; rewrite DM, Z; lra).
    rewrite DM. replace (det cc / (det m * det cc)) with (INR n).
    - apply Rabs_right. apply Rle_ge, pos_INR.
    - apply Rmult_eq_reg_l with (det m); auto. rewrite DT. field. auto. }
  rewrite R, INR_IZR_INZ, round_int, <- Nat2Z.inj_mul in TR. apply Nat2Z.inj in TR. exact TR.
Qed.
Print Assumptions C38_number_of_atoms.
(* other properties come from the first atom of the type - the documentation says the last *)
Theorem C38_properties_of_first_atom : forall spglib cell atoms cv arg pc new,
  NoDup (keys atoms) -> get_primitive spglib cell atoms cv arg = Ok (pc, new) ->
  exists d ts, obtain_data spglib cell atoms arg = Ok d /\
    (exists tv, lookup "spglib_types" new = Some tv /\ ints tv = ts) /\
    (forall key v, key <> "positions" -> lookup key atoms = Some v ->
     exists l, lookup key new = Some (PList l) /\
       Forall2 (fun t x => exists j, nth_error (original_types d) j = Some t /\
                  (forall j', (j' < j)%nat -> nth_error (original_types d) j' <> Some t) /\
                  nth_error (elements v) j = Some x) ts l) /\
    (forall key, key <> "positions" -> key <> "spglib_types" -> lookup key atoms = None -> lookup key new = None).
Proof.
  intros spglib cell atoms cv arg pc new ND H. unfold get_primitive in H. apply bind_ok in H. destruct H as (d & D & H).
  apply bind_ok in H. destruct H as ([[c ps] ts] & S & H). apply bind_ok in H. destruct H as (n & MA & H). injection H as <- <-.
  destruct (make_atoms_spec _ _ _ _ _ ND MA) as (NP & I & TN & O). exists d, ts. split; auto. split.
  { destruct (lookup "spglib_types" atoms) as [w|] eqn:LK.
    - destruct (I "spglib_types" w) as (l & L' & IB); [discriminate|exact LK|]. exists (PList l). split; auto.
      unfold ints at 1. cbn [elements]. eapply first_items_ints; [|eauto]. eapply obtain_spglib_types; eauto.
    - exists (PList (map PNpInt ts)). split; [apply TN; auto|]. apply ints_np. }
  split; auto. intros key v NK LK. destruct (I key v NK LK) as (l & LL & IB). exists l. split; auto.
  eapply Forall2_weaken; [|exact IB]. intros t x (j & J & X). apply first_index_spec in J. destruct J as (_ & A & B).
  rewrite Nat.sub_0_r in *. eauto.
Qed.
Print Assumptions C38_properties_of_first_atom.

(* two atoms of one type with different charges *)
Definition two_atoms (x : R) : atoms_dict :=
  [("positions", PList [PList [PFloat 0; PFloat 0; PFloat 0]; PList [PFloat (1/2); PFloat (1/2); PFloat x]]);
   ("spglib_types", PList [PInt 1; PInt 1]); ("charge", PList [PInt 2; PInt 3])].
Definition bcc_data (cc : mat) (x : R) : spglib_data :=
  SpglibData cc [V3 0 0 0; V3 (1/2) (1/2) x] [1%Z; 1%Z] (/ 100000) (-1) 229 "c" "I"
    cc [V3 0 0 0; V3 (1/2) (1/2) x] [1%Z; 1%Z]
    (mmul (mk (-1/2) (1/2) (1/2) (1/2) (-1/2) (1/2) (1/2) (1/2) (-1/2)) cc) [V3 0 0 0] [1%Z].
Lemma bcc_obtain cc x : obtain_data None cc (two_atoms x) (Data (bcc_data cc x)) = Ok (bcc_data cc x).
Proof.
  apply (obtain_own None cc (two_atoms x) (bcc_data cc x)
    (PList [PList [PFloat 0; PFloat 0; PFloat 0]; PList [PFloat (1/2); PFloat (1/2); PFloat x]]) (PList [PInt 1; PInt 1])); reflexivity.
Qed.
Theorem C38_last_atom_refuted : exists cell atoms d pc new cc conv,
  obtain_data None cell atoms (Data d) = Ok d /\
  get_primitive None cell atoms "spglib" (Data d) = Ok (pc, new) /\
  get_conventional None cell atoms "spglib" (Data d) = Ok (cc, conv) /\
  lookup "charge" new = Some (PList [PInt 2]) /\              (* the first *)
  lookup "charge" conv = Some (PList [PInt 3; PInt 3]).       (* the last *)
Proof.
  exists mid, (two_atoms (1/2)), (bcc_data mid (1/2)). do 4 eexists. split; [apply bcc_obtain|].
  unfold get_primitive, get_conventional. rewrite bcc_obtain. cbn [bind].
  split; [reflexivity|]. split; [reflexivity|]. split; reflexivity.
Qed.
Print Assumptions C38_last_atom_refuted.

(* a body-centred crystal: both atoms of the conventional cell become one.  General computation,
   with the coordinate of the second atom left open *)
Lemma bcc_primitive cc x cv : det cc <> 0 -> In cv ["hpkot"; "sc"] ->
  primitive_structure None cc (two_atoms x) (bcc_data cc x) cv =
  do (ps, ts) <- get_unique [V3 0 0 0; V3 (1/2 + x) (1/2 + x) 1] [1%Z; 1%Z] 2 (/ 100000);
  Ok (mmul (mk (-1/2) (1/2) (1/2) (1/2) (-1/2) (1/2) (1/2) (1/2) (-1/2)) cc, ps, ts).
Proof.
  intros D CV. unfold primitive_structure. cbv zeta.
  assert (LC : lower cv = cv) by (destruct CV as [<-|[<-|[]]]; reflexivity). rewrite LC.
  assert (NS : String.eqb cv "spglib" = false) by (destruct CV as [<-|[<-|[]]]; reflexivity). rewrite NS.
  rewrite (proj2 (mem_true _ _) CV).
  assert (G : exists ps, get_conventional None cc (two_atoms x) cv (Data (bcc_data cc x)) = Ok (cc, 
     [("positions", pos_val ps); ("spglib_types", PList [PInt 1; PInt 1]); ("charge", PList [PInt 3; PInt 3])]) /\
     ps = [V3 0 0 0; V3 (1/2) (1/2) x]).
  { unfold get_conventional. rewrite bcc_obtain. cbn [bind].
    destruct CV as [<-|[<-|[]]].
    - change (conventional_structure (lib_niggli None) (bcc_data cc x) "hpkot") with
        (Ok (cc, [V3 0 0 0; V3 (1/2) (1/2) x], [1%Z; 1%Z])). eexists. split; reflexivity.
    - change (conventional_structure (lib_niggli None) (bcc_data cc x) "sc") with
        (do ps <- reexpress [V3 0 0 0; V3 (1/2) (1/2) x] cc cc; Ok (cc, ps, [1%Z; 1%Z])).
      unfold reexpress. rewrite (proj2 (minv_ok cc _) (conj D eq_refl)). cbn [bind map].
      assert (RI : forall p, vmat (vmat p cc) (minv_total cc) = p) by (intros p; rewrite vmat_mmul, minv_r by auto; apply vmat_id).
      rewrite !RI. eexists. split; reflexivity. }
  destruct G as (ps & G & ->). rewrite G. cbn [bind].
  set (A := mk (-1/2) (1/2) (1/2) (1/2) (-1/2) (1/2) (1/2) (1/2) (-1/2)).
  assert (TA : (if String.eqb cv "hpkot" then getitem (String.append (crystal_family (bcc_data cc x)) (centring_type (bcc_data cc x))) HPKOT_CONVENTIONAL_TO_PRIMITIVE
     else if String.eqb cv "sc" then getitem (String.append (crystal_family (bcc_data cc x)) (centring_type (bcc_data cc x))) SC_CONVENTIONAL_TO_PRIMITIVE
     else Err PotentialBugError) = Ok A) by (destruct CV as [<-|[<-|[]]]; reflexivity).
  rewrite TA. cbn [bind].
  match goal with |- context [getitem "positions" ?l] => change (getitem "positions" l) with (Ok (pos_val [V3 0 0 0; V3 (1/2) (1/2) x])) end.
  cbn [bind]. rewrite positions_of_val. cbn [bind].
  assert (DA : det (tr A) = 1 / 2) by (unfold A; vunfold; field).
  assert (DP : det (mmul (tr A) cc) <> 0) by (rewrite det_mmul, DA; nra).
  unfold reexpress. rewrite (proj2 (minv_ok _ _) (conj DP eq_refl)). cbn [bind map].
  match goal with |- context [getitem "spglib_types" ?l] => change (getitem "spglib_types" l) with (Ok (PList [PInt 1; PInt 1])) end.
  cbn [bind]. change (ints (PList [PInt 1; PInt 1])) with [1%Z; 1%Z].
  rewrite (vmat_via (V3 0 0 0) (V3 0 0 0)) by (auto; unfold A; vunfold; f_equal; field).
  rewrite (vmat_via (V3 (1/2) (1/2) x) (V3 (1/2 + x) (1/2 + x) 1)) by (auto; unfold A; vunfold; f_equal; field).
  assert (RP : Rabs (det cc / det (mmul (tr A) cc)) = 2).
  { rewrite det_mmul, DA. replace (det cc / (1 / 2 * det cc)) with 2 by (field; auto). apply Rabs_right. lra. }
  rewrite RP. change (symprec (bcc_data cc x)) with (/ 100000).
  replace (tr A) with A by reflexivity. reflexivity.
Qed.
Lemma coord_1 : mod1 (mod1 (round8 1)) = 0.
Proof.
  unfold round8. rewrite (round_unique _ 100000000) by (apply Rabs_def1; lra).
  replace (100000000 / 100000000) with 1 by field. replace (mod1 1) with 0.
  - rewrite mod1_small; lra.
  - unfold mod1. rewrite (int_part_unique 1 1) by lra. lra.
Qed.
Example C37_case : forall cc cv, det cc <> 0 -> In cv ["hpkot"; "sc"] ->
  exists pc, get_primitive None cc (two_atoms (1/2)) cv (Data (bcc_data cc (1/2))) =
    Ok (pc, [("positions", pos_val [V3 0 0 0]); ("spglib_types", PList [PInt 1]); ("charge", PList [PInt 2])]) /\
    det pc = det cc / 2.
Proof.
  intros cc cv D CV. unfold get_primitive. rewrite bcc_obtain. cbn [bind]. rewrite bcc_primitive by auto.
  replace (1 / 2 + 1 / 2) with 1 by field.
  unfold get_unique. cbv zeta. cbn [map]. unfold normal_position, vmap. cbn [vx vy vz]. rewrite coord_0, coord_1, (round_int 2).
  cbn [forallb]. unfold n_equiv. cbn [filter]. rewrite !same_refl by lra. cbn [length].
  change (Z.of_nat 2 =? 2)%Z with true. change (2 =? 2)%nat with true. cbn [andb negb].
  change (enumerate [V3 0 0 0; V3 0 0 0]) with [(0%nat, V3 0 0 0); (1%nat, V3 0 0 0)].
  cbn [unique_loop filter snd]. rewrite !same_refl by lra. cbn [negb unique_loop at_indices map nth_error concat app bind].
  eexists. split; [reflexivity|]. rewrite det_mmul. vunfold. field.
Qed.
(* The same crystal with the second atom displaced by 10^-7 of a unit cell along -c (a hundred
   times less than symprec): the two atoms are equivalent, one falls on the other side of the cell
   boundary, and the function raises. *)
Theorem C38_wraparound_refuted : forall cv, In cv ["hpkot"; "sc"] ->
  exists cell atoms d q1 q2 pc n,
    obtain_data None cell atoms (Data d) = Ok d /\
    conventional_positions d = [q1; q2] /\ pc = primitive_cell d /\
    (* Cartesian distance between the second atom and a primitive translate of the first *)
    norm (vsub (vmat q2 (conventional_cell d)) (vadd (vmat q1 (conventional_cell d)) (vmat (ofZv n) pc))) <= symprec d / 50 /\
    get_primitive None cell atoms cv (Data d) = Err ValueError.
Proof.
  intros cv CV. set (x := 1 / 2 - / 10000000).
  exists mid, (two_atoms x), (bcc_data mid x), (V3 0 0 0), (V3 (1/2) (1/2) x), (primitive_cell (bcc_data mid x)), (Zv 1 1 1).
  split; [apply bcc_obtain|]. split; [reflexivity|]. split; [reflexivity|]. split.
  { cbn [bcc_data conventional_cell primitive_cell symprec].
    match goal with |- norm ?v <= _ => replace v with (V3 0 0 (- / 10000000)) end.
    - unfold norm, dot. cbn [vx vy vz]. replace (0 * 0 + 0 * 0 + - / 10000000 * - / 10000000) with (/ 10000000 * / 10000000) by ring.
      rewrite sqrt_square; lra.
    - unfold x. cbv [vsub vadd vmat mmul ofZv mid mk dot col1 col2 col3 vx vy vz zx zy zz row1 row2 row3]. f_equal; field. }
  unfold get_primitive. rewrite bcc_obtain. cbn [bind]. rewrite bcc_primitive; [|vunfold; lra|auto].
  unfold get_unique. cbv zeta. cbn [map]. unfold normal_position, vmap. cbn [vx vy vz]. rewrite coord_0, coord_1, (round_int 2).
  replace (1 / 2 + x) with (9999999 / 10000000) by (unfold x; field).
  assert (C : mod1 (mod1 (round8 (9999999 / 10000000))) = 9999999 / 10000000).
  { unfold round8. replace (9999999 / 10000000 * 100000000) with (IZR 99999990) by field. rewrite round_int.
    replace (99999990 / 100000000) with (9999999 / 10000000) by field. rewrite !(mod1_small (9999999 / 10000000)) by lra. reflexivity. }
  rewrite C. cbn [forallb]. unfold n_equiv at 1. cbn [filter]. rewrite same_refl by lra.
  rewrite far by (vunfold; lra). cbn [length]. change (Z.of_nat 1 =? 2)%Z with false. reflexivity.
Qed.
Print Assumptions C38_wraparound_refuted.
