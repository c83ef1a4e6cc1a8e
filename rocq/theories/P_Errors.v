(* P_Errors.v : property C66, which exceptions leave the functions that read what the user wrote. *)
From Verif Require Import Base M_Strings M_Dict M_Geometry M_Atoms M_Spglib M_Primitive M_Positions M_Kpoints M_Poscar M_Conventional M_Variation M_Path T_Atoms M_Plot F_Strings F_Voronoi F_Conventional F_Atoms F_Primitive F_Kpoints F_Poscar S_Poscar P_Numerals P_Poscar P_PoscarFile P_Conventional P_SpglibData P_Colors P_Kpoints.
Open Scope string_scope.
Open Scope list_scope.
Open Scope R_scope.

(* the call returns or raises one of these *)
Definition raises_only {A} (es : list exn) (r : res A) : Prop := forall e, r = Err e -> In e es.

Lemma ro_ok {A} es (a : A) : raises_only es (Ok a). Proof. intros e H. discriminate. Qed.
Lemma ro_err {A} es e : In e es -> raises_only es (@Err A e). Proof. intros H e' E. injection E as <-. exact H. Qed.
Lemma ro_bind {A B} es (r : res A) (f : A -> res B) : raises_only es r -> (forall a, r = Ok a -> raises_only es (f a)) -> raises_only es (bind r f).
Proof. intros H F e. destruct r as [a|e']; cbn [bind]; [apply (F a eq_refl)|]. intros E. injection E as <-. apply H. reflexivity. Qed.
Lemma ro_mapM {A B} es (f : A -> res B) l : (forall x, In x l -> raises_only es (f x)) -> raises_only es (mapM f l).
Proof.
  induction l as [|x l IH]; intros H; cbn [mapM]; [apply ro_ok|]. apply ro_bind; [apply H; cbn; auto|]. intros. apply ro_bind; [apply IH; intros; apply H; cbn; auto|]. intros. apply ro_ok.
Qed.
Lemma ro_sub {A} es es' (r : res A) : raises_only es r -> incl es es' -> raises_only es' r.
Proof. intros H I e E. apply I, H, E. Qed.
Ltac ro := repeat first
  [ apply ro_ok | (apply ro_err; cbn; tauto) | (apply ro_bind; [|intros]) | (apply ro_mapM; intros) | assumption
  | match goal with |- raises_only _ (if ?b then _ else _) => destruct b eqn:? | |- raises_only _ (match ?x with _ => _ end) => destruct x eqn:? end ].
(* ---------------- numerals ---------------- *)
Lemma ro_parse_int s : raises_only [ValueError] (parse_int s).
Proof. unfold parse_int. ro. Qed.

Lemma ro_parse_float s : raises_only [ValueError; NotANumber] (parse_float s).
Proof.
  intros e E. destruct (parse_float s) as [x|] eqn:P; [discriminate|]. injection E as ->.
  destruct (C56_special s) as [A B]. destruct e; try (cbn; tauto).
  all: exfalso; enough (parse_float s = Err ValueError) by congruence; apply C56_refused;
    [intros x W; apply C56_numbers in W; congruence|intros W; apply B in W; congruence].
Qed.
(* ---------------- load_poscar ---------------- *)
Lemma readlines_nonempty text l : In l (readlines text) -> l <> "".
Proof.
  revert l. induction text as [|c s IH]; cbn [readlines]; intros l; [intros []|].
  destruct (Ascii.eqb c LF); [intros [<-|I]; [discriminate|apply IH, I]|].
  destruct (readlines s) as [|w ws] eqn:R; [intros [<-|[]]; discriminate|]. intros [<-|I]; [discriminate|]. apply IH. cbn. auto.
Qed.
Definition file_errors := [ValueError; IndexError; LinAlgError; NotANumber].
Lemma ro_line lines i : raises_only file_errors (line lines i).
Proof. unfold line. ro. Qed.
Lemma ro_float1 s : raises_only file_errors (parse_float s).
Proof. apply (ro_sub _ _ _ (ro_parse_float s)). intros e. cbn. tauto. Qed.
Lemma ro_floats l : raises_only file_errors (mapM parse_float l).
Proof. apply ro_mapM. intros. apply (ro_sub _ _ _ (ro_parse_float x)). intros e. cbn. tauto. Qed.
(* Reading any text gives a crystal or raises ValueError, IndexError (the text ends too early, or there are fewer
   species than numbers) or LinAlgError (Cartesian positions and a cell without volume); NotANumber stands for
   nan or inf in the result. *)
Theorem C66_load_poscar : forall text, raises_only [ValueError; IndexError; LinAlgError; NotANumber] (load_poscar (readlines text)).
Proof.
  intros text. fold file_errors. pose proof (readlines_nonempty text) as NE. set (lines := readlines text) in *.
  assert (FC : forall i l, line lines i = Ok l -> raises_only file_errors (first_char l)).
  { intros i l E. unfold line in E. destruct (nth_error lines i) as [l'|] eqn:N; [|discriminate]. injection E as ->. apply nth_error_In in N. apply NE in N. destruct l; [congruence|]. apply ro_ok. }
  assert (PI : forall s, raises_only file_errors (parse_int s)) by (intros s; apply (ro_sub _ _ _ (ro_parse_int s)); intros e; cbn; tauto).
  unfold load_poscar. ro; try apply ro_line; try apply ro_floats; try apply PI; try (eapply FC; eassumption).
  all: try (unfold parse_floats; apply ro_floats).
  all: try (unfold three; ro; fail).
  all: try (unfold apply_scale, get_volume; ro; fail).
  all: unfold read_atom; ro; try apply ro_line; try apply ro_floats; try (unfold three; ro; fail); unfold minv; ro; apply ro_float1.
Qed.
Print Assumptions C66_load_poscar.

(* ---------------- Kpoints ---------------- *)
(* exactly when a call on a Kpoints object raises, and what *)
Theorem C66_kpoints_calls : forall k o k' err, reachable k -> outer o = false -> M_Kpoints.step k o = (k', err) ->
  match o with
  | AddPoint name _ _ relative =>
      (err = Some ValueError <-> In name (k_names k)) /\
      (err = Some LinAlgError <-> ~ In name (k_names k) /\ relative = false /\ det (k_rcell k) = 0) /\
      (err = None <-> ~ In name (k_names k) /\ (relative = true \/ det (k_rcell k) <> 0))
  | RemovePoint _ => err = None
  | SetPath p => err = None \/ err = Some ValueError \/ (err = Some TypeError /\ p = PathOther)
  | SetN a => err = match a with NInt _ => None | NOther => Some ValueError end
  | CallerAppends _ => True
  end.
Proof.
  intros k o k' err R O E. pose proof (reachable_consistent k R) as (_ & C & L & _). destruct k as [rc names coords labs path n sh]. cbn [k_names k_coords k_labels k_rcell] in *.
  destruct o as [name c lab rel|name|p|a|name]; unfold M_Kpoints.step in E; [| | | |exact I].
  - destruct (mem name names) eqn:M.
    + apply mem_true in M. injection E as _ <-. split; [tauto|]. split; (split; [discriminate|tauto]).
    + assert (NI : ~ In name names) by (intros I; apply mem_true in I; congruence). destruct rel; cbn [bind] in E.
      * injection E as _ <-. split; [split; [discriminate|tauto]|]. split; [split; [discriminate|intros (_ & H & _); discriminate]|tauto].
      * unfold minv in E. destruct (Reqb_spec (det rc) 0) as [D|D]; cbn [bind] in E; injection E as _ <-.
        -- split; [split; [discriminate|tauto]|]. split; [tauto|]. split; [discriminate|]. intros (_ & [H|H]); [discriminate|contradiction].
        -- split; [split; [discriminate|tauto]|]. split; [split; [discriminate|intros (_ & _ & H); contradiction]|tauto].
  - rewrite C, L in E. destruct (mem name names); injection E as _ <-; reflexivity.
  - unfold check_path in E. destruct (read_path p) as [l|e] eqn:RP; cbn [bind] in E.
    + destruct (forallb (fun s => mem s names) (List.concat l)); [injection E as _ <-; auto|].
      replace (forallb (fun s => mem s (keys coords)) names) with true in E; [injection E as _ <-; auto|].
      symmetry. apply forallb_forall. intros x I. rewrite C. apply mem_true, I.
    + injection E as _ <-. right. destruct p as [s|l|]; cbn [read_path] in RP.
      * left. f_equal. enough (RO : raises_only [ValueError] (get_path_as_list s)) by (destruct (RO e RP) as [<-|[]]; reflexivity).
        unfold get_path_as_list. induction (split "|" s) as [|x l IH]; cbn [collect_subpaths]; cbv zeta; ro.
      * left. f_equal. enough (RO : raises_only [ValueError] (mapM read_subpath l)) by (destruct (RO e RP) as [<-|[]]; reflexivity). apply ro_mapM. intros x _. unfold read_subpath. ro.
      * right. split; [congruence|reflexivity].
  - destruct a; injection E as _ <-; reflexivity.
Qed.
Print Assumptions C66_kpoints_calls.

(* each of them does leave load_poscar *)
Definition flat_lines : list string := ["flat"; "1"; "0 0 0"; "0 0 0"; "0 0 0"; "Fe"; "1"; "Cartesian"; "0 0 0"].
Definition as_text (lines : list string) : string := concat_str (map (fun l => String.append l (String newline "")) lines).
Example C66_each : load_poscar (readlines "") = Err IndexError /\ load_poscar (readlines (as_text ["comment"; "abc"])) = Err ValueError /\
  load_poscar (readlines (as_text ["comment"; "nan"])) = Err NotANumber /\ load_poscar (readlines (as_text flat_lines)) = Err LinAlgError.
Proof.
  split; [reflexivity|]. split; [reflexivity|]. split; [reflexivity|].
  assert (L : readlines (as_text flat_lines) = map (fun l => String.append l (String newline "")) flat_lines) by (vm_compute; reflexivity). rewrite L. clear L.
  assert (Z : forall l, In l ["0 0 0"] -> parse_floats (String.append l (String newline "")) = Ok [0 / 1; 0 / 1; 0 / 1]) by (intros l [<-|[]]; reflexivity).
  unfold load_poscar. cbn [map flat_lines line nth_error bind]. change (parse_floats ("1" ++ String newline "")) with (Ok [1 / 1]). cbn [bind skipn firstn mapM].
  rewrite !Z by (left; reflexivity). cbn [bind three apply_scale]. replace (Rltb (1 / 1) 0) with false by (symmetry; apply Rltb_false; lra). cbn [bind].
  match goal with |- context[mscale ?a ?b] => set (cell := mscale a b) end.
  assert (D : det cell = 0) by (unfold cell; vunfold; field).
  change (existsb (fun s => negb (parses s)) (words ("Fe" ++ String newline ""))) with true. cbn [bind].
  change (mapM parse_int (words ("1" ++ String newline ""))) with (Ok [1%Z]). cbn [bind].
  change (first_char ("Cartesian" ++ String newline "")) with (Ok "C"%char). cbn [bind]. change (Ascii.eqb (lower_ascii "C") "s") with false. cbv iota.
  cbn [bind nth_error]. change (first_char ("Cartesian" ++ String newline "")) with (Ok "C"%char). cbn [bind].
  change (enumerate (species_indices [1%Z] 0)) with [(0%nat, 0%nat)]. cbn [mapM fst snd]. unfold read_atom at 1. cbn [line nth_error Nat.add bind].
  change (mapM parse_float (firstn 3 (words ("0 0 0" ++ String newline "")))) with (Ok [0 / 1; 0 / 1; 0 / 1]). cbn [bind three].
  change (Ascii.eqb (lower_ascii "C") "c" || Ascii.eqb (lower_ascii "C") "k")%bool with true. cbv iota. unfold minv. rewrite D.
  replace (Reqb 0 0) with true by (symmetry; apply Reqb_true; reflexivity). reflexivity.
Qed.

(* ---------------- conventions ---------------- *)
(* The names of the conventions are compared without regard to case.  Other names, and "spglib" where a k-path is
   asked for, are refused with ConventionNotSupported. *)
Theorem C66_conventions : forall spglib cell atoms arg d, obtain_data spglib cell atoms arg = Ok d -> obtain_data spglib cell atoms (Data d) = Ok d ->
  (forall cv, ~ In (lower cv) ["spglib"; "hpkot"; "sc"] ->
     get_primitive spglib cell atoms cv arg = Err ConventionNotSupported /\
     (forall tr rel, get_path_and_points spglib cell atoms arg cv tr rel = Err ConventionNotSupported) /\
     (forall tr n, from_crystal spglib cell atoms cv tr n arg = Err ConventionNotSupported)) /\
  (forall cv c p, lower cv = "spglib" -> get_conventional spglib cell atoms cv (Data d) = Ok c -> get_primitive spglib cell atoms cv (Data d) = Ok p ->
     (forall tr rel, get_path_and_points spglib cell atoms arg cv tr rel = Err ConventionNotSupported) /\
     (forall tr n, from_crystal spglib cell atoms cv tr n arg = Err ConventionNotSupported)) /\
  (forall cv cv', lower cv = lower cv' -> get_primitive spglib cell atoms cv arg = get_primitive spglib cell atoms cv' arg /\
     (forall tr rel, get_path_and_points spglib cell atoms arg cv tr rel = get_path_and_points spglib cell atoms arg cv' tr rel) /\
     (forall tr n, from_crystal spglib cell atoms cv tr n arg = from_crystal spglib cell atoms cv' tr n arg)).
Proof.
  intros spglib cell atoms arg d D DD.
  assert (FC : forall cv e, (forall tr rel, get_path_and_points spglib cell atoms arg cv tr rel = Err e) -> forall tr n, from_crystal spglib cell atoms cv tr n arg = Err e).
  { intros cv e H tr n. unfold from_crystal. rewrite H. reflexivity. }
  assert (GP : forall cv cv' a, lower cv = lower cv' -> get_primitive spglib cell atoms cv a = get_primitive spglib cell atoms cv' a).
  { intros cv cv' a E. unfold get_primitive, primitive_structure. rewrite E. reflexivity. }
  assert (PP : forall cv cv', lower cv = lower cv' -> forall tr rel, get_path_and_points spglib cell atoms arg cv tr rel = get_path_and_points spglib cell atoms arg cv' tr rel).
  { intros cv cv' E tr rel. unfold get_path_and_points. rewrite D. cbn [bind]. rewrite (GP cv cv' _ E), E. destruct (C32_convention_names spglib cell atoms (Data d) d DD) as [_ C]. rewrite (C cv cv' E). reflexivity. }
  split; [|split].
  - intros cv NI. destruct (C32_convention_names spglib cell atoms (Data d) d DD) as [C _]. specialize (C cv NI).
    assert (PG : forall tr rel, get_path_and_points spglib cell atoms arg cv tr rel = Err ConventionNotSupported) by (intros; unfold get_path_and_points; rewrite D; cbn [bind]; rewrite C; reflexivity).
    split; [|auto]. unfold get_primitive. rewrite D. cbn [bind]. unfold primitive_structure. cbv zeta.
    destruct (String.eqb_spec (lower cv) "spglib") as [E|_]; [destruct NI; rewrite E; cbn; auto|].
    destruct (mem (lower cv) ["hpkot"; "sc"]) eqn:M; [|reflexivity]. apply mem_true in M. destruct NI. cbn in *. tauto.
  - intros cv c p E C P.
    assert (PG : forall tr rel, get_path_and_points spglib cell atoms arg cv tr rel = Err ConventionNotSupported).
    { intros. unfold get_path_and_points. rewrite D. cbn [bind]. rewrite C, P. destruct c, p. cbn [bind]. rewrite E. reflexivity. }
    auto.
  - intros cv cv' E. split; [apply GP, E|]. split; [apply PP, E|]. intros tr n. unfold from_crystal. rewrite (PP cv cv' E). reflexivity.
Qed.
Print Assumptions C66_conventions.
Example C66_case : let d := data_for mid "o" "P" in obtain_data None mid one_atom (Data d) = Ok d /\
  (exists c p, get_conventional None mid one_atom "Spglib" (Data d) = Ok c /\ get_primitive None mid one_atom "Spglib" (Data d) = Ok p) /\
  (forall tr rel, get_path_and_points None mid one_atom (Data d) "Spglib" tr rel = Err ConventionNotSupported) /\ ~ In (lower "hpkt") ["spglib"; "hpkot"; "sc"].
Proof.
  cbv zeta. pose proof (one_atom_obtain None mid "o" "P") as O. split; [exact O|].
  assert (S : exists c p, get_conventional None mid one_atom "Spglib" (Data (data_for mid "o" "P")) = Ok c /\ get_primitive None mid one_atom "Spglib" (Data (data_for mid "o" "P")) = Ok p).
  { unfold get_conventional, get_primitive. rewrite O. eexists _, _. split; reflexivity. }
  split; [exact S|]. split; [|cbn; intuition discriminate]. destruct S as (c & p & C & P).
  destruct (C66_conventions None mid one_atom _ _ O O) as (_ & H & _). apply (H "Spglib" c p); auto.
Qed.

(* ---------------- plot_atoms ---------------- *)
Lemma mapM_bad {A B} (f : A -> res B) pre x rest e : Forall (fun y => exists z, f y = Ok z) pre -> f x = Err e -> mapM f (pre ++ x :: rest) = Err e.
Proof. intros F E. induction F as [|y pre (z & Z) F IH]; cbn [app mapM]; [rewrite E; reflexivity|]. rewrite Z. cbn [bind]. rewrite IH. reflexivity. Qed.
(* Atoms that cannot be coloured leave the picture as it is.  The first species that has no colour decides: KeyError
   for an unknown word or a number, TypeError for a list; without species a name that is not a str is an
   AttributeError. *)
Theorem C66_plot_atoms : forall place cell atoms ps label shift hover, lookup "positions" atoms = Some (pos_val ps) -> ps <> [] ->
  let p := plot_atoms place cell atoms DefaultColors label shift hover in
  (forall good x rest, lookup "species" atoms = Some (PList (map PStr good ++ x :: rest)) -> Forall (fun s => In s ("X" :: ATOM_SPECIES)) good ->
     (forall l, x = PList l -> p = ([], Some TypeError)) /\
     (forall s, x = PStr s -> ~ In s (keys ATOM_COLORS) -> p = ([], Some KeyError)) /\
     ((forall s, x <> PStr s) -> (forall l, x <> PList l) -> p = ([], Some KeyError))) /\
  (forall good x rest, lookup "species" atoms = None -> lookup "names" atoms = Some (PList (map PStr good ++ x :: rest)) ->
     (forall s, x <> PStr s) -> p = ([], Some AttributeError)).
Proof.
  intros place cell atoms ps label shift hover P NE. cbv zeta. unfold plot_atoms. unfold getitem. rewrite P. cbn [with_res]. rewrite positions_of_val. cbn [with_res].
  destruct ps as [|p0 ps0]; [congruence|]. cbn [length Nat.eqb]. split.
  - intros good x rest S F. rewrite S. cbn [elements bind].
    assert (G : forall e, color_of x = Err e -> mapM color_of (map PStr good ++ x :: rest) = Err e).
    { intros e E. apply mapM_bad; [|exact E]. apply Forall_map. eapply Forall_impl; [|exact F]. intros s I. destruct (C50_table s I) as (c & L & _). exists c. cbn [color_of]. unfold getitem. rewrite L. reflexivity. }
    split; [|split].
    + intros l ->. rewrite (G TypeError eq_refl). reflexivity.
    + intros s -> N. rewrite (G KeyError); [reflexivity|]. cbn [color_of]. unfold getitem. destruct (lookup s ATOM_COLORS) eqn:L; [|reflexivity]. destruct N. apply lookup_in. eauto.
    + intros N1 N2. rewrite (G KeyError); [reflexivity|]. destruct x; try reflexivity; [destruct (N1 s eq_refl)|destruct (N2 l eq_refl)].
  - intros good x rest S N NS. rewrite S, N. cbn [elements].
    rewrite (mapM_bad species_of (map PStr good) x rest AttributeError); [reflexivity| |].
    + apply Forall_map, Forall_forall. intros s _. destruct (species_total s) as (r & R). exists (PStr r). cbn [species_of]. rewrite R. reflexivity.
    + destruct x; try reflexivity. destruct (NS s eq_refl).
Qed.
Print Assumptions C66_plot_atoms.
Example C66_plot_case : plot_atoms (1, 1)%Z mid [("positions", pos_val [V3 0 0 0; V3 0 0 1]); ("species", PList [PStr "Fe"; PStr "Zz"])] DefaultColors None vzero true = ([], Some KeyError) /\
  plot_atoms (1, 1)%Z mid [("positions", pos_val [V3 0 0 0]); ("names", PList [PInt 7])] DefaultColors None vzero true = ([], Some AttributeError).
Proof.
  split.
  - destruct (C66_plot_atoms (1, 1)%Z mid [("positions", pos_val [V3 0 0 0; V3 0 0 1]); ("species", PList [PStr "Fe"; PStr "Zz"])] [V3 0 0 0; V3 0 0 1] None vzero true) as [H _]; [reflexivity|discriminate|].
    destruct (H ["Fe"] (PStr "Zz") []) as (_ & K & _); [reflexivity|constructor; [apply mem_true; vm_compute; reflexivity|constructor]|]. apply (K "Zz" eq_refl). intros I. apply mem_true in I. vm_compute in I. discriminate.
  - destruct (C66_plot_atoms (1, 1)%Z mid [("positions", pos_val [V3 0 0 0]); ("names", PList [PInt 7])] [V3 0 0 0] None vzero true) as [_ H]; [reflexivity|discriminate|].
    apply (H [] (PInt 7) []); [reflexivity|reflexivity|discriminate].
Qed.
