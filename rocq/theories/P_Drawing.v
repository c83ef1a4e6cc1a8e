(* P_Drawing.v : property C54 (what the plotting methods draw). *)
From Verif Require Import Base M_Strings M_Dict T_Atoms M_Atoms M_Cell M_Voronoi M_Positions M_Spglib M_Kpoints M_Poscar M_Plot
  F_Strings F_Voronoi F_Lepage F_Geometry F_Conventional P_Voronoi P_Plot.
From Coq Require Import Permutation.
Open Scope string_scope.
Open Scope list_scope.
Open Scope R_scope.

(* ---- specification ---- *)
(* the call c, made with the object e, raises nothing and adds exactly the traces ts *)
Definition draws (e : engine) (c : call) (ts : list trace) : Prop :=
  exists e', run_call e c = (e', None) /\ e_traces e' = e_traces e ++ ts.
(* the straight line from p to q *)
Definition segment (place : Z * Z) (color : string) (label : option string) (pq : vec * vec) : trace :=
  Trace place Lines [fst pq; snd pq] [color] [] label.
Definition labels (ts : list trace) : list string :=
  flat_map (fun t => match t_label t with Some l => [l] | None => [] end) ts.
Definition call_label (c : call) : option string :=
  match c with
  | PlotPoints _ _ _ l | PlotLine _ _ _ _ l | PlotVector _ _ _ _ _ l | PlotCell _ _ _ _ _ _ l
  | PlotWignerSeitz _ _ _ _ _ _ _ l | PlotBrillouin _ _ _ _ _ _ _ l | PlotKpath _ _ _ _ l
  | PlotKpoints _ _ _ _ l _ | PlotLattice _ _ _ _ _ _ _ l | PlotAtoms _ _ _ _ l _ _ => l
  end.
Definition call_place (c : call) : Z * Z :=
  match c with
  | PlotPoints a _ _ _ | PlotLine a _ _ _ _ | PlotVector a _ _ _ _ _ | PlotCell a _ _ _ _ _ _
  | PlotWignerSeitz _ a _ _ _ _ _ _ | PlotBrillouin _ a _ _ _ _ _ _ | PlotKpath a _ _ _ _
  | PlotKpoints a _ _ _ _ _ | PlotLattice a _ _ _ _ _ _ _ | PlotAtoms a _ _ _ _ _ _ => a
  end.
(* corners of the parallelepiped spanned by the rows of the cell, and its edges: pairs of
   corners that differ in one coordinate *)
Definition corner (cell : mat) (shift : vec) (x y z : R) : vec :=
  vadd shift (vadd (vscale x (row1 cell)) (vadd (vscale y (row2 cell)) (vscale z (row3 cell)))).
Definition edges_of (cell : mat) (shift : vec) : list (vec * vec) :=
  flat_map (fun s => flat_map (fun t =>
    [(corner cell shift 0 s t, corner cell shift 1 s t);
     (corner cell shift s 0 t, corner cell shift s 1 t);
     (corner cell shift s t 0, corner cell shift s t 1)]) [0; 1]) [0; 1].

(* ---- lemmas ---- *)
Lemma draws_iff e c ts : draws e c ts <-> exists l, program_of c = (l, None) /\ added l = ts.
Proof.
  unfold draws, run_call. destruct (program_of c) as [l x] eqn:P. split.
  - intros (e' & H & T). injection H as <- ->. exists l. split; auto. rewrite traces_added in T. apply app_inv_head in T. auto.
  - intros (l' & H & <-). injection H as <- ->. eexists. split; [reflexivity|]. apply traces_added.
Qed.
Lemma added_app a b : added (a ++ b) = added a ++ added b.
Proof. apply flat_map_app. Qed.
Lemma and_then_ok p q l : and_then p q = (l, None) <-> exists a b, p = (a, None) /\ q = (b, None) /\ l = a ++ b.
Proof.
  destruct p as [a [x|]], q as [b y]; cbn; split.
  - discriminate.
  - intros (? & ? & H & _). discriminate.
  - intros H. injection H as <- ->. eauto.
  - intros (? & ? & H & H' & ->). injection H as <-. injection H' as <- ->. reflexivity.
Qed.

(* ---- C54: nothing that was drawn disappears, and other subplots are untouched ---- *)
Definition local (place : Z * Z) (a : action) : Prop := match a with Add t => t_at t = place | Update p _ _ => p = place end.
Lemma local_all place l : Forall (fun p => Forall (local place) (fst p)) l -> Forall (local place) (fst (all_of l)).
Proof.
  induction 1 as [|p l H F IH]; cbn; [constructor|]. destruct p as [a [x|]]; cbn in *; [exact H|]. apply Forall_app. auto.
Qed.
Lemma local_and place p q : Forall (local place) (fst p) -> Forall (local place) (fst q) -> Forall (local place) (fst (and_then p q)).
Proof. destruct p as [a [x|]]; cbn; intros; [auto|]. apply Forall_app; auto. Qed.
Lemma local_with {A} place (r : res A) k : (forall a, r = Ok a -> Forall (local place) (fst (k a))) -> Forall (local place) (fst (with_res r k)).
Proof. destruct r; cbn; intros; [auto|constructor]. Qed.
Lemma local_line place p q c l : Forall (local place) (fst (plot_line place p q c l)).
Proof. repeat constructor. Qed.
Lemma local_vectors place m s vl c : Forall (local place) (fst (plot_vectors place m s vl c)).
Proof. repeat constructor. Qed.
Lemma local_report place t points : t_at t = place -> Forall (local place) (fst (report place points (fun lo hi => act [Add t; Update place lo hi]))).
Proof. destruct points; cbn; repeat constructor; auto. Qed.
Lemma local_edges place vs s c : forall es l, Forall (local place) (fst (edge_lines place vs es s c l)).
Proof.
  induction es as [|[i j] es IH]; intros l; cbn [edge_lines]; [constructor|]. apply local_and; auto.
  do 2 (apply local_with; intros). apply local_line.
Qed.
Lemma local_ws V place m v vl c s l : Forall (local place) (fst (plot_wigner_seitz_cell V place m v vl c s l)).
Proof.
  unfold plot_wigner_seitz_cell. apply local_and; [destruct v; [apply local_vectors|constructor]|].
  apply local_with. intros. apply local_edges.
Qed.
Lemma local_call c : Forall (local (call_place c)) (fst (program_of c)).
Proof.
  destruct c; cbn [call_place program_of].
  - apply local_report. reflexivity.
  - apply local_line.
  - unfold plot_vector. destruct vector_label; repeat constructor.
  - unfold plot_cell. apply local_and; [destruct vectors; [apply local_vectors|constructor]|]. repeat constructor.
  - apply local_ws.
  - unfold plot_brillouin_zone. apply local_with. intros. apply local_ws.
  - unfold plot_kpath. generalize (@None (list vec)) as xyz. revert label. induction (k_path kp) as [|sp path IH]; intros label xyz; cbn [kpath_lines].
    + destruct xyz as [ps|]; [|constructor]. destruct ps; cbn; repeat constructor.
    + apply local_with. intros ps _. destruct ps; [constructor|]. apply local_and; [repeat constructor|]. apply IH.
  - unfold plot_kpoints. apply local_with. intros ps _. apply local_report. reflexivity.
  - unfold plot_lattice. apply local_with. intros ps _. apply local_report. reflexivity.
  - unfold plot_atoms. do 2 (apply local_with; intros). destruct (Nat.eqb _ 0); [constructor|]. do 3 (apply local_with; intros). apply local_report. reflexivity.
Qed.
Lemma update_elsewhere place lo hi rs q a b : q <> place -> (In (q, (a, b)) (update_range place lo hi rs) <-> In (q, (a, b)) rs).
Proof.
  intros N. induction rs as [|[p [l h]] rs IH]; cbn; [split; [intros [H|[]]; congruence|intros []]|].
  destruct (same_place place p) eqn:E; cbn.
  - apply same_place_iff in E. subst p. split; (intros [H|H]; [congruence|auto]).
  - rewrite IH. tauto.
Qed.
Theorem C54_only_adds : forall e c, let e' := fst (run_call e c) in
  (exists ts, e_traces e' = e_traces e ++ ts /\ Forall (fun t => t_at t = call_place c) ts) /\
  (forall place lo hi, place <> call_place c -> (range_at e' place lo hi <-> range_at e place lo hi)).
Proof.
  intros e c. cbv zeta. unfold run_call. pose proof (local_call c) as L. destruct (program_of c) as [l x]. cbn [fst] in *. split.
  - exists (added l). split; [apply traces_added|]. apply Forall_forall. intros t H. unfold added in H. apply in_flat_map in H.
    destruct H as (a & A & H). rewrite Forall_forall in L. specialize (L a A). destruct a; [|destruct H]. destruct H as [<-|[]]. exact L.
  - intros place lo hi N. unfold range_at. clear x. revert e. induction L as [|a l A L IH]; intros e; cbn [fold_left]; [tauto|]. rewrite IH.
    destruct a; cbn [perform e_ranges local] in *; [tauto|]. subst. apply update_elsewhere. auto.
Qed.
Print Assumptions C54_only_adds.

(* ---- C54: lines, vectors and points ---- *)
Theorem C54_line : forall e place p q color label, draws e (PlotLine place p q color label) [segment place color label (p, q)].
Proof. intros. apply draws_iff. eexists. split; reflexivity. Qed.
Print Assumptions C54_line.
(* A label stands on the ray of the vector, beyond its end, at 1.2 of its length. *)
Theorem C54_vector : forall e place p q color label text,
  draws e (PlotVector place p q color None label) [segment place color label (p, q); Trace place Cone [q] [color] [] None] /\
  exists r, vsub r p = vscale (12 / 10) (vsub q p) /\
  draws e (PlotVector place p q color (Some text) label)
    [segment place color label (p, q); Trace place Cone [q] [color] [] None; Trace place TextOnly [r] [color] [text] None].
Proof.
  intros. split; [apply draws_iff; eexists; split; reflexivity|].
  exists (vadd (vscale (12 / 10) (vsub q p)) p). split; [vring|]. apply draws_iff. eexists. split; reflexivity.
Qed.
Print Assumptions C54_vector.
Theorem C54_points : forall e place points colors label,
  (points <> [] -> draws e (PlotPoints place points colors label) [Trace place Markers points colors [] label]) /\
  (points = [] -> run_call e (PlotPoints place points colors label) = (e, Some IndexError)).
Proof.
  intros e place points colors label. split; intros H.
  - destruct points as [|p l]; [congruence|]. apply draws_iff. eexists. split; reflexivity.
  - subst. reflexivity.
Qed.
Print Assumptions C54_points.

(* ---- C54: plot_cell ---- *)
Lemma cell_segments place cell shift color :
  exists first rest, Permutation (first :: rest) (edges_of cell shift) /\
    forall label vl l, program_of (PlotCell place cell color false vl shift label) = (l, None) ->
      added l = segment place color label first :: map (segment place color None) rest.
Proof.
  set (c := corner cell shift).
  exists (c 0 0 0, c 1 0 0).
  exists [(c 1 0 0, c 1 1 0); (c 1 0 0, c 1 0 1); (c 1 1 0, c 1 1 1);
          (c 0 0 0, c 0 1 0); (c 0 1 0, c 0 1 1); (c 0 1 0, c 1 1 0); (c 0 1 1, c 1 1 1);
          (c 0 0 0, c 0 0 1); (c 0 0 1, c 1 0 1); (c 0 0 1, c 0 1 1); (c 1 0 1, c 1 1 1)].
  split.
  - unfold edges_of. cbn [flat_map app]. fold c.
    generalize (c 0 0 0) as c000, (c 0 0 1) as c001, (c 0 1 0) as c010, (c 0 1 1) as c011, (c 1 0 0) as c100, (c 1 0 1) as c101, (c 1 1 0) as c110, (c 1 1 1) as c111.
    intros. apply perm_skip.
    repeat match goal with
    | |- Permutation [] [] => apply perm_nil
    | |- Permutation (?x :: ?l) (?x :: ?r) => apply perm_skip
    | |- Permutation (?x :: ?l) ?r =>
        let rec go acc r := lazymatch r with
          | x :: ?t => constr:((rev acc, t))
          | ?y :: ?t => go constr:(y :: acc) t end in
        let p := go (@nil (vec * vec)) r in
        let a := eval cbn in (fst p) in let t := eval cbn in (snd p) in
        change r with (a ++ x :: t); apply Permutation_cons_app; cbn [app]
    end.
  - intros label vl l H. cbn in H. injection H as <-. cbn [added flat_map app map].
    unfold segment; cbn [fst snd].
    repeat match goal with |- _ :: _ = _ :: _ => f_equal end; try reflexivity;
      (f_equal; (f_equal; [|f_equal]); subst c; unfold corner; vring).
Qed.
Theorem C54_cell : forall e place cell color vl shift label, exists first rest,
  Permutation (first :: rest) (edges_of cell shift) /\
  draws e (PlotCell place cell color false vl shift label) (segment place color label first :: map (segment place color None) rest).
Proof.
  intros e place cell color vl shift label. destruct (cell_segments place cell shift color) as (f & r & P & H).
  exists f, r. split; [exact P|]. apply draws_iff. eexists. split; [reflexivity|]. apply (H label vl). reflexivity.
Qed.
Print Assumptions C54_cell.
(* with plot_vectors: the three vectors of the cell come first, named label1, label2, label3 *)
Definition vectors_drawn (place : Z * Z) (cell : mat) (color vl : string) (shift : vec) (ts : list trace) : Prop :=
  exists tips, length tips = 3%nat /\
    (forall i a tip, nth_error [row1 cell; row2 cell; row3 cell] i = Some a -> nth_error tips i = Some tip ->
       tip = vadd shift (vscale (12 / 10) a)) /\
    ts = flat_map (fun '(a, text, tip) =>
      [segment place color None (shift, vadd shift a); Trace place Cone [vadd shift a] [color] [] None;
       Trace place TextOnly [tip] [color] [String.append vl text] None])
      (combine (combine [row1 cell; row2 cell; row3 cell] ["1"; "2"; "3"]) tips).
Lemma vectors_traces place cell shift vl color :
  exists l, plot_vectors place cell shift vl color = (l, None) /\ vectors_drawn place cell color vl shift (added l).
Proof.
  eexists. split; [reflexivity|].
  set (tip a := vadd (vscale (12 / 10) (vsub (vadd shift a) shift)) shift).
  exists [tip (row1 cell); tip (row2 cell); tip (row3 cell)]. split; [reflexivity|]. split; [|reflexivity].
  assert (T : forall a, tip a = vadd shift (vscale (12 / 10) a)) by (intros; unfold tip; vring).
  intros [|[|[|i]]] a t A B; cbn in A, B; try (injection A as <-; injection B as <-; apply T).
  all: try discriminate. all: destruct i; discriminate.
Qed.
Theorem C54_cell_vectors : forall e place cell color vl shift label, exists vs ts,
  vectors_drawn place cell color vl shift vs /\
  draws e (PlotCell place cell color false vl shift label) ts /\
  draws e (PlotCell place cell color true vl shift label) (vs ++ ts).
Proof.
  intros e place cell color vl shift label. destruct (vectors_traces place cell shift vl color) as (l & P & V).
  exists (added l). destruct (C54_cell e place cell color vl shift label) as (f & r & _ & D). eexists. split; [exact V|]. split; [exact D|].
  apply draws_iff in D. destruct D as (l' & E & A). apply draws_iff. cbn [program_of] in *. unfold plot_cell in *. rewrite P.
  exists (l ++ l'). rewrite <- A. split; [|apply added_app]. apply and_then_ok. exists l, l'. repeat split; auto.
Qed.
Print Assumptions C54_cell_vectors.

(* ---- C54: Wigner-Seitz cells and Brillouin zones ---- *)
(* the edges of a graph as pairs of shifted points *)
Definition shifted_edge (vertices : list vec) (shift : vec) (ij : nat * nat) (pq : vec * vec) : Prop :=
  exists p q, nth_error vertices (fst ij) = Some p /\ nth_error vertices (snd ij) = Some q /\ pq = (vadd shift p, vadd shift q).
Lemma np_index_nat {A} (l : list A) i x : nth_error l i = Some x -> np_index l (Z.of_nat i) = Ok x.
Proof.
  intros H. assert (L : (i < length l)%nat) by (apply nth_error_Some; congruence). unfold np_index.
  destruct (Z.ltb_spec (Z.of_nat i) 0); [lia|]. destruct (Z.ltb_spec (Z.of_nat i) 0), (Z.leb_spec (Z.of_nat (length l)) (Z.of_nat i)); try lia.
  cbn [orb]. rewrite Nat2Z.id, H. reflexivity.
Qed.
(* the first line carries the label *)
Definition lines_drawn place color (label : option string) (segments : list (vec * vec)) : list trace :=
  match segments with [] => [] | s :: rest => segment place color label s :: map (segment place color None) rest end.
Lemma edges_traces place vs shift color : forall es segs label, Forall2 (shifted_edge vs shift) es segs ->
  exists l, edge_lines place vs es shift color label = (l, None) /\ added l = lines_drawn place color label segs.
Proof.
  intros es segs label F. revert label. induction F as [|[i j] pq es segs H F IH]; intros label; [exists []; split; reflexivity|].
  destruct H as (p & q & P & Q & ->). cbn [fst snd] in *. destruct (IH None) as (l & L & A).
  eexists. split.
  { cbn [edge_lines]. rewrite (np_index_nat _ _ _ P), (np_index_nat _ _ _ Q). cbn [with_res]. apply and_then_ok. eexists _, l. split; [reflexivity|]. split; [exact L|reflexivity]. }
  rewrite added_app, A. cbn. f_equal. destruct segs; reflexivity.
Qed.
Lemma shifted_edges vs shift es : (forall i j, In (i, j) es -> (i < length vs)%nat /\ (j < length vs)%nat) ->
  exists segs, Forall2 (shifted_edge vs shift) es segs.
Proof.
  induction es as [|[i j] es IH]; intros H; [exists []; constructor|].
  destruct IH as (segs & F); [intros; apply H; right; auto|]. destruct (H i j (or_introl eq_refl)) as (I & J).
  destruct (nth_error vs i) as [p|] eqn:P; [|apply nth_error_None in P; lia]. destruct (nth_error vs j) as [q|] eqn:Q; [|apply nth_error_None in Q; lia].
  exists ((vadd shift p, vadd shift q) :: segs). constructor; auto. exists p, q. auto.
Qed.
(* Whenever the cell can be computed it is drawn, edge by edge, translated by the shift. *)
Theorem C54_wigner_seitz : forall e lib place cell vl color shift label vertices edges,
  (forall pts, valid_answer (lib pts)) -> get_wigner_seitz_cell (Some lib) cell = Ok (vertices, edges) ->
  exists segments, Forall2 (shifted_edge vertices shift) edges segments /\
    draws e (PlotWignerSeitz (Some lib) place cell false vl color shift label) (lines_drawn place color label segments) /\
    exists vs, vectors_drawn place cell color vl shift vs /\
      draws e (PlotWignerSeitz (Some lib) place cell true vl color shift label) (vs ++ lines_drawn place color label segments).
Proof.
  intros e lib place cell vl color shift label vs es HV G.
  destruct (C15_voronoi_graph lib cell vs es HV G) as (_ & _ & _ & _ & B & _).
  destruct (shifted_edges vs shift es B) as (segs & F). exists segs. split; [exact F|].
  destruct (edges_traces place vs shift color es segs label F) as (l & L & A).
  destruct (vectors_traces place cell shift vl color) as (lv & P & V).
  split.
  - apply draws_iff. cbn [program_of]. unfold plot_wigner_seitz_cell. rewrite G. cbn [with_res fst snd]. rewrite L. exists l. auto.
  - exists (added lv). split; [exact V|]. apply draws_iff. cbn [program_of]. unfold plot_wigner_seitz_cell. rewrite P, G. cbn [with_res fst snd]. rewrite L.
    exists (lv ++ l). split; [reflexivity|]. rewrite added_app, A. reflexivity.
Qed.
Print Assumptions C54_wigner_seitz.
(* The Brillouin zone is drawn as the Wigner-Seitz cell of the dual lattice. *)
Theorem C54_brillouin_zone : forall e lib place cell vectors vl color shift label, det cell <> 0 ->
  exists r, mmul r (tr cell) = mscale (2 * PI) mid /\
    run_call e (PlotBrillouin lib place cell vectors vl color shift label) = run_call e (PlotWignerSeitz lib place r vectors vl color shift label).
Proof.
  intros e lib place cell vectors vl color shift label D. pose proof (get_reciprocal_ok cell D) as E. eexists. split; [apply reciprocal_dual; exact E|].
  unfold run_call. cbn [program_of]. unfold plot_brillouin_zone. rewrite E. reflexivity.
Qed.
Print Assumptions C54_brillouin_zone.

(* ---- C54: k-points and k-paths ---- *)
(* the position of a named k-point in reciprocal space *)
Definition k_position (kp : kpoints) (shift : vec) (name : string) (p : vec) : Prop :=
  exists c, lookup name (k_coords kp) = Some c /\
    p = vadd shift (vadd (vscale (vx c) (row1 (k_rcell kp))) (vadd (vscale (vy c) (row2 (k_rcell kp))) (vscale (vz c) (row3 (k_rcell kp))))).
Lemma absolute_iff kp shift n p : absolute kp shift n = Ok p <-> k_position kp shift n p.
Proof.
  unfold absolute, k_position, getitem. destruct (lookup n (k_coords kp)) as [c|]; cbn [bind]; split.
  - intros H. injection H as <-. exists c. split; [reflexivity|]. vring.
  - intros (c' & H & ->). injection H as <-. f_equal. vring.
  - discriminate.
  - intros (c' & H & _). discriminate.
Qed.
Theorem C54_kpath : forall e place kp color shift label ts,
  draws e (PlotKpath place kp color shift label) ts ->
  exists lines, k_path kp <> [] /\ Forall2 (fun subpath ps => Forall2 (k_position kp shift) subpath ps) (k_path kp) lines /\
    ts = match lines with
         | [] => []
         | l :: rest => Trace place Lines l [color] [] label :: map (fun l => Trace place Lines l [color] [] None) rest
         end.
Proof.
  intros e place kp color shift label ts D. apply draws_iff in D. destruct D as (l & P & <-). cbn [program_of] in P. unfold plot_kpath in P.
  assert (K : forall path label xyz l, kpath_lines place kp shift color label path xyz (fun xyz =>
      match xyz with None => ([], Some UnboundLocalError) | Some ps => report place ps (fun lo hi => act [Update place lo hi]) end) = (l, None) ->
    exists lines, Forall2 (fun subpath ps => Forall2 (k_position kp shift) subpath ps) path lines /\ (xyz = None -> path <> []) /\
    added l = match lines with
         | [] => []
         | l :: rest => Trace place Lines l [color] [] label :: map (fun l => Trace place Lines l [color] [] None) rest
         end).
  { clear. induction path as [|sp path IH]; intros label xyz l H; cbn [kpath_lines] in H.
    - exists []. split; [constructor|]. destruct xyz as [ps|]; [|discriminate]. split; [discriminate|]. destruct ps; [discriminate|].
      cbn in H. injection H as <-. reflexivity.
    - destruct (mapM (absolute kp shift) sp) as [ps|] eqn:M; [|discriminate]. cbn [with_res] in H. destruct ps as [|p0 ps0]; [discriminate|].
      set (ps := p0 :: ps0) in *. apply and_then_ok in H. destruct H as (a & b & A & B & ->). injection A as <-.
      destruct (IH None (Some ps) b B) as (lines & F & _ & E). exists (ps :: lines). split; [|split; [discriminate|]].
      + constructor; auto. apply mapM_ok in M. clear -M. induction M; constructor; auto. apply absolute_iff; auto.
      + rewrite added_app, E. cbn. f_equal. destruct lines; reflexivity. }
  destruct (K _ _ _ _ P) as (lines & F & N & E). exists lines. split; [auto|]. split; auto.
Qed.
Print Assumptions C54_kpath.
(* the points named in the path only, or all of them; each with its name beside it *)
Theorem C54_kpoints : forall e place kp color shift label only ts,
  draws e (PlotKpoints place kp color shift label only) ts ->
  exists names ps, names <> [] /\ Forall2 (k_position kp shift) names ps /\
    ts = [Trace place MarkersText ps [color] names label] /\
    (only = false -> names = k_names kp) /\
    (only = true -> forall n, count_occ string_dec names n =
       if in_dec string_dec n (concat (k_path kp)) then count_occ string_dec (k_names kp) n else 0%nat).
Proof.
  intros e place kp color shift label only ts D. apply draws_iff in D. destruct D as (l & P & <-). cbn [program_of] in P. unfold plot_kpoints in P.
  set (names := filter _ _) in P.
  destruct (mapM _ names) as [ps|] eqn:M; [|discriminate]. cbn [with_res] in P. destruct ps as [|p0 ps0]; [discriminate|]. set (ps := p0 :: ps0) in *.
  cbn in P. injection P as <-. exists names, ps. apply mapM_ok in M.
  assert (F : Forall2 (k_position kp shift) names ps).
  { clear -M. induction M as [|n p ns ps H M IH]; constructor; auto. destruct (absolute kp shift n) as [q|] eqn:A; [|discriminate]. cbn [bind] in H.
    destruct (getitem n (k_labels kp)); [|discriminate]. injection H as <-. apply absolute_iff; auto. }
  split; [intros N; rewrite N in F; inversion F|]. split; [exact F|]. split; [reflexivity|]. clearbody ps. clear -names. split; intros ->; unfold names.
  - cbn [negb orb]. clear. induction (k_names kp) as [|n l IH]; cbn; [reflexivity|]. congruence.
  - intros n. cbn [negb orb]. clear. induction (k_names kp) as [|m l IH]; cbn; [destruct (in_dec _ _ _); reflexivity|].
    destruct (mem m (concat (k_path kp))) eqn:E; cbn; destruct (string_dec m n) as [->|]; rewrite ?IH; destruct (in_dec string_dec n (concat (k_path kp))) as [I|I]; auto.
    + exfalso. apply I. apply mem_true. auto.
    + exfalso. apply mem_true in I. congruence.
Qed.
Print Assumptions C54_kpoints.
(* both succeed for every object made by the constructor, whatever was assigned to its path since *)
Example C54_kpath_case : exists kp ts, init mid [V3 0 0 0; V3 5 0 0; V3 0 1 0; V3 0 0 1] (Some ["A"; "B"; "C"; "D"]) None
     (Some (PathList [SubList ["A"; "B"]; SubList ["C"; "D"]])) 100 = Ok kp /\
   draws new_engine (PlotKpath (1, 1)%Z kp "black" (V3 0 0 0) (Some "path")) ts /\ length ts = 2%nat /\
   exists ts', draws new_engine (PlotKpoints (1, 1)%Z kp "black" (V3 0 0 0) None true) ts'.
Proof.
  eexists _, _. split; [reflexivity|]. split; [apply draws_iff; eexists; split; reflexivity|]. split; [reflexivity|].
  eexists. apply draws_iff. eexists. split; reflexivity.
Qed.

(* ---- C54: lattices ---- *)
Theorem C54_lattice : forall e place cell color r1 r2 r3 shift label, (0 <= r1)%Z -> (0 <= r2)%Z -> (0 <= r3)%Z ->
  exists ps, draws e (PlotLattice place cell color r1 r2 r3 shift label) [Trace place Markers ps [color] [] label] /\
    Z.of_nat (length ps) = ((2 * r1 + 1) * (2 * r2 + 1) * (2 * r3 + 1))%Z /\
    forall p, In p ps <-> exists i j k, (- r1 <= i <= r1)%Z /\ (- r2 <= j <= r2)%Z /\ (- r3 <= k <= r3)%Z /\
      p = vadd shift (vadd (vscale (IZR i) (row1 cell)) (vadd (vscale (IZR j) (row2 cell)) (vscale (IZR k) (row3 cell)))).
Proof.
  intros e place cell color r1 r2 r3 shift label H1 H2 H3.
  destruct (C14_exact_enumeration cell false r1 r2 r3 H1 H2 H3) as (pts & G & L & K1 & K2).
  exists (map (fun p => vadd p shift) pts). split; [|split; [rewrite map_length; exact L|]].
  - apply draws_iff. cbn [program_of]. unfold plot_lattice. rewrite G. cbn [with_res]. destruct pts as [|p0 pts]; [exfalso; clear -L H1 H2 H3; change (Z.of_nat (length (@nil vec))) with 0%Z in L; assert (0 < (2 * r1 + 1) * (2 * r2 + 1))%Z by nia; nia|].
    eexists. split; reflexivity.
  - intros p. rewrite in_map_iff. split.
    + intros (q & <- & Q). apply In_nth_error in Q. destruct Q as (n & Q). destruct (K2 n q Q) as (i & j & k & (A & B & C) & _ & ->).
      exists i, j, k. repeat (split; [lia|]). unfold point. vring.
    + intros (i & j & k & A & B & C & ->). exists (point cell false i j k). split; [unfold point; vring|].
      eapply nth_error_In. apply K1. repeat split; lia.
Qed.
Print Assumptions C54_lattice.

(* ---- C54: legends ---- *)
(* A call that succeeds adds one legend entry if it is given a label and none otherwise. *)
Lemma labels_lines place color label segs : labels (lines_drawn place color label segs) =
  match segs, label with [], _ | _, None => [] | _, Some l => [l] end.
Proof.
  destruct segs as [|s segs]; [reflexivity|]. cbn. replace (flat_map _ (map (segment place color None) segs)) with (@nil string).
  - destruct label; reflexivity.
  - induction segs; cbn; auto.
Qed.
Lemma labels_vectors place cell color vl shift vs : vectors_drawn place cell color vl shift vs -> labels vs = [].
Proof. intros (tips & L & _ & ->). destruct tips as [|a [|b [|c [|d tips]]]]; try discriminate. reflexivity. Qed.
Lemma labels_app a b : labels (a ++ b) = labels a ++ labels b. Proof. apply flat_map_app. Qed.
Definition valid_library (c : call) : Prop :=
  match c with
  | PlotWignerSeitz (Some lib) _ _ _ _ _ _ _ | PlotBrillouin (Some lib) _ _ _ _ _ _ _ => forall pts, valid_answer (lib pts)
  | _ => True
  end.
Lemma one_trace (label : option string) t : t_label t = label -> labels [t] = match label with Some l => [l] | None => [] end.
Proof. intros <-. cbn. destruct (t_label t); reflexivity. Qed.
Lemma ws_edges lib cell verts edges : get_wigner_seitz_cell (Some lib) cell = Ok (verts, edges) -> edges <> [].
Proof.
  unfold get_wigner_seitz_cell, get_voronoi_cell. destruct (get_lattice_points cell 10 10 10 false) as [pts|]; [|discriminate]. cbn [bind].
  generalize (collect index_000 (combine (ridge_vertices (lib pts)) (ridge_points (lib pts))) []). intros es. unfold finish.
  destruct es as [|e0 es]; [discriminate|]. set (l := e0 :: es). cbv zeta. generalize (unique (flat_map (fun e : Z * Z => [fst e; snd e]) l)). intros ids.
  destruct (mapM (fun e : Z * Z => do i <- dict_index (fst e) ids; do j <- dict_index (snd e) ids; Ok (i, j)) l) as [r|] eqn:M; [|discriminate]. cbn [bind].
  destruct (mapM (np_index _) ids) as [vs|]; [|discriminate]. cbn [bind]. intros H. assert (Q : r = edges) by congruence. subst edges.
  apply mapM_ok in M. inversion M. discriminate.
Qed.
Lemma ws_label lib e place cell vectors vl color shift label ts : (forall pts, valid_answer (lib pts)) ->
  draws e (PlotWignerSeitz (Some lib) place cell vectors vl color shift label) ts -> labels ts = match label with Some l => [l] | None => [] end.
Proof.
  intros HV D. destruct (get_wigner_seitz_cell (Some lib) cell) as [[verts edges]|x] eqn:G.
  - destruct (C54_wigner_seitz e lib place cell vl color shift label verts edges HV G) as (segs & F & D1 & vs & V & D2).
    assert (U : forall c a b, draws e c a -> draws e c b -> a = b).
    { intros c a b A B. apply draws_iff in A, B. destruct A as (la & A & <-), B as (lb & B & <-). congruence. }
    assert (NE : segs <> []). { intros ->. inversion F; subst. eapply ws_edges; eauto. }
    assert (E : labels (lines_drawn place color label segs) = match label with Some l => [l] | None => [] end).
    { rewrite labels_lines. destruct segs; [congruence|]. destruct label; reflexivity. }
    destruct vectors.
    + rewrite (U _ _ _ D D2), labels_app, (labels_vectors _ _ _ _ _ _ V). exact E.
    + rewrite (U _ _ _ D D1). exact E.
  - apply draws_iff in D. destruct D as (l & P & _). cbn [program_of] in P. unfold plot_wigner_seitz_cell in P. rewrite G in P. cbn [with_res] in P.
    apply and_then_ok in P. destruct P as (a & b & _ & B & _). discriminate.
Qed.
Lemma report_label place t points l : report place points (fun lo hi => act [Add t; Update place lo hi]) = (l, None) -> added l = [t].
Proof. destruct points; [discriminate|]. cbn. intros H. injection H as <-. reflexivity. Qed.
Theorem C54_legend : forall e c ts, valid_library c -> draws e c ts ->
  labels ts = match call_label c with Some l => [l] | None => [] end.
Proof.
  intros e c ts VL D. destruct c; cbn [call_label valid_library] in *.
  - apply draws_iff in D. destruct D as (l & P & <-). apply report_label in P. rewrite P. apply one_trace. reflexivity.
  - apply draws_iff in D. destruct D as (l & P & <-). cbn in P. injection P as <-. apply one_trace. reflexivity.
  - apply draws_iff in D. destruct D as (l & P & <-). cbn in P. injection P as <-. destruct vector_label, label; reflexivity.
  - assert (U : forall a, draws e (PlotCell at_ cell color vectors vector_label shift label) a -> a = ts).
    { intros a A. apply draws_iff in A, D. destruct A as (la & A & <-), D as (lb & B & <-). congruence. }
    destruct (C54_cell e at_ cell color vector_label shift label) as (f & r & _ & D1).
    destruct (C54_cell_vectors e at_ cell color vector_label shift label) as (vs & ts' & V & D1' & D2).
    assert (E : ts' = lines_drawn at_ color label (f :: r)).
    { apply draws_iff in D1, D1'. destruct D1 as (la & A & A'), D1' as (lb & B & B'). rewrite A in B. injection B as <-. cbn [lines_drawn]. congruence. }
    destruct vectors.
    + rewrite <- (U _ D2), labels_app, (labels_vectors _ _ _ _ _ _ V), E, labels_lines. destruct label; reflexivity.
    + rewrite <- (U _ D1'), E, labels_lines. destruct label; reflexivity.
  - destruct V as [lib|].
    + eapply ws_label; eauto.
    + apply draws_iff in D. destruct D as (l & P & _). cbn [program_of] in P. unfold plot_wigner_seitz_cell in P. apply and_then_ok in P.
      destruct P as (a & b & _ & B & _). discriminate.
  - apply draws_iff in D. destruct D as (l & P & <-). cbn [program_of] in P. unfold plot_brillouin_zone in P.
    destruct (get_reciprocal cell) as [r|]; [|discriminate]. cbn [with_res] in P. destruct V as [lib|].
    + apply (ws_label lib e at_ r vectors vector_label color shift label); auto. apply draws_iff. exists l. auto.
    + unfold plot_wigner_seitz_cell in P. apply and_then_ok in P. destruct P as (a & b & _ & B & _). discriminate.
  - apply C54_kpath in D. destruct D as (lines & NE & F & ->). destruct lines as [|l0 lines]; [inversion F; congruence|].
    cbn. replace (flat_map _ (map _ lines)) with (@nil string) by (clear; induction lines; cbn; auto). destruct label; reflexivity.
  - apply C54_kpoints in D. destruct D as (names & ps & _ & _ & -> & _). apply one_trace. reflexivity.
  - apply draws_iff in D. destruct D as (l & P & <-). cbn [program_of] in P. unfold plot_lattice in P.
    destruct (get_lattice_points _ _ _ _ _) as [ps|]; [|discriminate]. cbn [with_res] in P. apply report_label in P. rewrite P. apply one_trace. reflexivity.
  - apply draws_iff in D. destruct D as (l & P & <-). cbn [program_of] in P. unfold plot_atoms in P.
    destruct (getitem "positions" atoms) as [v|]; [|discriminate]. cbn [with_res] in P. destruct (positions_of v) as [ps|]; [|discriminate]. cbn [with_res] in P.
    destruct (Nat.eqb _ 0); [discriminate|]. destruct (match colors with DefaultColors => _ | _ => _ end) as [cs|]; [|discriminate]. cbn [with_res] in P.
    destruct (mapM _ _) as [tc|]; [|discriminate]. cbn [with_res] in P. destruct (if add_hoverinfo then _ else _) as [u|]; [|discriminate]. cbn [with_res] in P.
    apply report_label in P. rewrite P. apply one_trace. reflexivity.
Qed.
Print Assumptions C54_legend.
