(* P_Colors.v : property C50 (colours of the atoms drawn by plot_atoms). *)
From Verif Require Import Base M_Strings M_Dict T_Atoms M_Atoms M_Cell M_Voronoi M_Positions M_Spglib M_Kpoints M_Poscar M_Plot
  F_Strings F_Atoms F_Voronoi F_Lepage F_Conventional P_Atoms.
Open Scope string_scope.
Open Scope list_scope.
Open Scope R_scope.

(* ---- specification: hexadecimal colours and their lightness ---- *)
Definition hex_digit (n : Z) (c : ascii) : Prop :=
  (0 <= n <= 15)%Z /\
  (String.get (Z.to_nat n) "0123456789abcdef" = Some c \/ String.get (Z.to_nat n) "0123456789ABCDEF" = Some c).
(* two digits denote a number from 0 to 255 *)
Definition channel (n : Z) (s : string) : Prop :=
  exists a b x y, hex_digit x a /\ hex_digit y b /\ s = String a (String b "") /\ n = (16 * x + y)%Z.
(* "#RRGGBB" *)
Definition hex_color (r g b : Z) (s : string) : Prop :=
  exists sr sg sb, channel r sr /\ channel g sg /\ channel b sb /\ s = String "#"%char (String.append sr (String.append sg sb)).
(* gamma correction of a channel given as a fraction of 255 *)
Definition corrected (x : R) : R := if Rle_dec x 0 then 0 else Rpower x 2.2.
Definition luminance (r g b : Z) : R :=
  0.2126 * corrected (IZR r / 255) + 0.7152 * corrected (IZR g / 255) + 0.0722 * corrected (IZR b / 255).
(* the lightness of the grey that is half way between black and white *)
Definition middle : R := Rpower 0.5 2.2.

(* ---- lemmas ---- *)
Lemma hex_digit_value n c : hex_digit n c -> hex_value c = Some n /\ is_space c = false /\ c <> "-"%char /\ c <> "+"%char.
Proof.
  intros ((L & U) & H).
  assert (E : exists k, (k <= 15)%nat /\ n = Z.of_nat k) by (exists (Z.to_nat n); split; lia).
  destruct E as (k & K & ->). rewrite Nat2Z.id in H. clear L U.
  do 16 (destruct k as [|k]; [cbn in H; destruct H as [H|H]; inversion H; subst c; (split; [vm_compute; reflexivity|split; [vm_compute; reflexivity|split; discriminate]])|]).
  lia.
Qed.
Lemma hex_int_channel n s : channel n s -> hex_int s = Ok n.
Proof.
  intros (a & b & x & y & A & B & -> & ->). apply hex_digit_value in A. apply hex_digit_value in B.
  destruct A as (A1 & A2 & A3 & A4), B as (B1 & B2 & _).
  unfold hex_int, strip. cbn [lstrip]. rewrite A2. cbn [rstrip nonempty negb andb]. rewrite B2. cbn [rstrip nonempty negb andb].
  cbn [take_sign]. destruct (Ascii.eqb_spec a "-"%char); [contradiction|]. destruct (Ascii.eqb_spec a "+"%char); [contradiction|].
  cbn [nonempty hex_digits]. rewrite A1, B1. cbn [bind]. f_equal. lia.
Qed.
Lemma channel_range n s : channel n s -> (0 <= n <= 255)%Z.
Proof. intros (a & b & x & y & (A & _) & (B & _) & _ & ->). lia. Qed.
Lemma channel_length n s : channel n s -> exists a b, s = String a (String b "").
Proof. intros (a & b & x & y & _ & _ & -> & _). eauto. Qed.
Lemma power_corrected x : 0 <= x -> power_gamma x = corrected x.
Proof.
  intros H. unfold power_gamma, corrected. destruct (Reqb_spec x 0), (Rle_dec x 0); try lra; auto; f_equal; lra.
Qed.
Lemma frac_pos n : (0 <= n)%Z -> 0 <= IZR n / 255.
Proof. intros. apply IZR_le in H. lra. Qed.
Lemma corrected_le x y : x <= y -> corrected x <= corrected y.
Proof.
  intros H. unfold corrected. destruct (Rle_dec x 0), (Rle_dec y 0); try lra.
  - left. apply exp_pos.
  - apply Rle_Rpower_l; lra.
Qed.
Lemma corrected_lt x y : 0 < x -> x < y -> corrected x < corrected y.
Proof. intros P H. unfold corrected. destruct (Rle_dec x 0), (Rle_dec y 0); try lra. apply Rlt_Rpower_l; lra. Qed.
Lemma contrast_value r g b s : hex_color r g b s ->
  get_good_contrast s = Ok (if Rltb middle (luminance r g b) then "#000000" else "#FFFFFF").
Proof.
  intros (sr & sg & sb & A & B & C & ->).
  destruct (channel_length _ _ A) as (a1 & a2 & ->), (channel_length _ _ B) as (b1 & b2 & ->), (channel_length _ _ C) as (c1 & c2 & ->).
  unfold get_good_contrast. cbn [tail1 String.append substring].
  rewrite (hex_int_channel _ _ A), (hex_int_channel _ _ B), (hex_int_channel _ _ C). cbn [bind].
  apply channel_range in A, B, C.
  destruct (Z.ltb_spec r 0), (Z.ltb_spec g 0), (Z.ltb_spec b 0); try lia. cbn [orb].
  rewrite (power_corrected (IZR r / 255)), (power_corrected (IZR g / 255)), (power_corrected (IZR b / 255)) by (apply frac_pos; lia).
  unfold luminance, middle.
  replace (power_gamma (1 / 2)) with (Rpower 0.5 2.2).
  2:{ unfold power_gamma. destruct (Reqb_spec (1 / 2) 0); [lra|]. f_equal; lra. }
  replace (2126 / 10000) with 0.2126 by lra. replace (7152 / 10000) with 0.7152 by lra. replace (722 / 10000) with 0.0722 by lra.
  reflexivity.
Qed.

(* ---- C50: the colour of the name drawn on an atom ---- *)
(* black on light colours, white on dark ones *)
Theorem C50_contrast : forall r g b s, hex_color r g b s ->
  (middle < luminance r g b -> get_good_contrast s = Ok "#000000") /\
  (luminance r g b <= middle -> get_good_contrast s = Ok "#FFFFFF").
Proof.
  intros r g b s H. rewrite (contrast_value _ _ _ _ H). destruct (Rltb_spec middle (luminance r g b)); split; intros; try lra; reflexivity.
Qed.
Print Assumptions C50_contrast.
(* a lighter colour never gets the lighter text *)
Theorem C50_contrast_monotone : forall r g b s r' g' b' s', hex_color r g b s -> hex_color r' g' b' s' ->
  (r <= r')%Z -> (g <= g')%Z -> (b <= b')%Z -> get_good_contrast s = Ok "#000000" -> get_good_contrast s' = Ok "#000000".
Proof.
  intros r g b s r' g' b' s' H H' R G B. rewrite (contrast_value _ _ _ _ H), (contrast_value _ _ _ _ H').
  destruct (Rltb_spec middle (luminance r g b)) as [L|L]; [|discriminate]. intros _.
  destruct (Rltb_spec middle (luminance r' g' b')) as [L'|L']; [reflexivity|]. exfalso.
  assert (M : forall x y, (x <= y)%Z -> corrected (IZR x / 255) <= corrected (IZR y / 255))
    by (intros x y XY; apply corrected_le; apply IZR_le in XY; lra).
  apply M in R, G, B. unfold luminance in *. lra.
Qed.
Print Assumptions C50_contrast_monotone.
(* greys: the text is black from #808080 on *)
Theorem C50_contrast_grey : forall v s, hex_color v v v s ->
  (get_good_contrast s = Ok "#000000" <-> (128 <= v)%Z) /\ (get_good_contrast s = Ok "#FFFFFF" <-> (v <= 127)%Z).
Proof.
  intros v s H. assert (V : (0 <= v)%Z) by (destruct H as (? & ? & ? & A & _); apply channel_range in A; lia).
  rewrite (contrast_value _ _ _ _ H).
  assert (E : luminance v v v = corrected (IZR v / 255)) by (unfold luminance; lra). rewrite E.
  assert (M : middle = corrected (1 / 2)) by (unfold middle, corrected; destruct (Rle_dec (1 / 2) 0); [lra|]; f_equal; lra). rewrite M.
  destruct (Z.le_gt_cases 128 v) as [G|G].
  - assert (X := IZR_le _ _ G). destruct (Rltb_spec (corrected (1 / 2)) (corrected (IZR v / 255))) as [L|L].
    + split; split; intros; try lia; try discriminate; reflexivity.
    + exfalso. assert (corrected (1 / 2) < corrected (IZR v / 255)) by (apply corrected_lt; lra). lra.
  - assert (G' : (v <= 127)%Z) by lia. assert (X := IZR_le _ _ G').
    destruct (Rltb_spec (corrected (1 / 2)) (corrected (IZR v / 255))) as [L|L].
    + exfalso. assert (corrected (IZR v / 255) <= corrected (1 / 2)) by (apply corrected_le; lra). lra.
    + split; split; intros; try lia; try discriminate; reflexivity.
Qed.
Print Assumptions C50_contrast_grey.
Example C50_contrast_case : hex_color 128 128 128 "#808080" /\ hex_color 255 77 103 "#ff4D67".
Proof.
  split.
  - exists "80", "80", "80". repeat split; eexists _, _, 8%Z, 0%Z; (repeat split; try lia; try (left; reflexivity)).
  - exists "ff", "4D", "67". split; [|split; [|split]]; [| | |reflexivity]; eexists _, _, _, _.
    + split; [|split; [|split; [reflexivity|]]]; [instantiate (1 := 15%Z)|instantiate (1 := 15%Z)|reflexivity]; (split; [lia|left; reflexivity]).
    + split; [|split; [|split; [reflexivity|]]]; [instantiate (1 := 4%Z)|instantiate (1 := 13%Z)|reflexivity]; (split; [lia|right; reflexivity]).
    + split; [|split; [|split; [reflexivity|]]]; [instantiate (1 := 6%Z)|instantiate (1 := 7%Z)|reflexivity]; (split; [lia|right; reflexivity]).
Qed.

(* ---- C50: the table of colours ---- *)
Definition parsed (s : string) : bool :=
  let h := tail1 s in
  match hex_int (substring 0 2 h), hex_int (substring 2 2 h), hex_int (substring 4 2 h) with
  | Ok r, Ok g, Ok b => negb ((r <? 0) || (g <? 0) || (b <? 0))%Z%bool
  | _, _, _ => false
  end.
Lemma parsed_ok s : parsed s = true -> exists t, get_good_contrast s = Ok t /\ (t = "#000000" \/ t = "#FFFFFF").
Proof.
  unfold parsed, get_good_contrast. cbv zeta. destruct (hex_int _) as [r|]; [|discriminate]. destruct (hex_int _) as [g|]; [|discriminate].
  destruct (hex_int _) as [b|]; [|discriminate]. cbn [bind]. destruct ((r <? 0) || (g <? 0) || (b <? 0))%Z%bool; [discriminate|]. intros _.
  eexists. split; [reflexivity|]. destruct (Rltb _ _); auto.
Qed.
Definition unreadable (s : string) : Prop := s = "Pd" \/ s = "Er".
(* Every species has a colour; all but two of the colours can be read. *)
Theorem C50_table : forall s, In s ("X" :: ATOM_SPECIES) -> exists c, lookup s ATOM_COLORS = Some c /\
  (~ unreadable s -> exists t, get_good_contrast c = Ok t /\ (t = "#000000" \/ t = "#FFFFFF")) /\
  (unreadable s -> get_good_contrast c = Err ValueError).
Proof.
  intros s H.
  assert (K : forallb (fun s => match lookup s ATOM_COLORS with
      | Some c => (String.eqb s "Pd" || String.eqb s "Er" || parsed c)%bool | None => false end) ("X" :: ATOM_SPECIES) = true)
    by (vm_compute; reflexivity).
  rewrite forallb_forall in K. specialize (K s H). destruct (lookup s ATOM_COLORS) as [c|] eqn:E; [|discriminate]. exists c. split; [reflexivity|].
  split.
  - intros N. unfold unreadable in N. destruct (String.eqb_spec s "Pd") as [->|]; [tauto|]. destruct (String.eqb_spec s "Er") as [->|]; [tauto|].
    apply parsed_ok. exact K.
  - intros [->| ->]; vm_compute in E; injection E as <-; reflexivity.
Qed.
Print Assumptions C50_table.

(* ---- C50: plot_atoms ---- *)
Lemma mapM_all_ok {A B} (f : A -> res B) l : (forall x, In x l -> exists y, f x = Ok y) -> exists r, mapM f l = Ok r /\ Forall2 (fun x y => f x = Ok y) l r.
Proof.
  induction l as [|x l IH]; intros H; [exists []; split; [reflexivity|constructor]|].
  destruct (H x (or_introl eq_refl)) as (y & E), IH as (r & R & F); [intros; apply H; right; auto|].
  exists (y :: r). cbn. rewrite E, R. cbn. split; [reflexivity|constructor; auto].
Qed.
Lemma mapM_some_err {A B} (f : A -> res B) l e : (forall x, In x l -> (exists y, f x = Ok y) \/ f x = Err e) -> (exists x, In x l /\ f x = Err e) ->
  mapM f l = Err e.
Proof.
  induction l as [|x l IH]; intros H (x0 & I & E); [destruct I|]. cbn.
  destruct (H x (or_introl eq_refl)) as [(y & Y)|Y]; rewrite Y; [|reflexivity]. cbn [bind].
  rewrite IH; [reflexivity|intros; apply H; right; auto|]. destruct I as [<-|I]; [congruence|eauto].
Qed.
(* the colours of a list of species *)
Definition colored (species colors : list string) : Prop := Forall2 (fun s c => lookup s ATOM_COLORS = Some c) species colors.
(* every value in the dictionary has a length *)
Definition sized_values (atoms : atoms_dict) : Prop :=
  forall k v, In (k, v) atoms -> (exists l, v = PList l) \/ (exists s, v = PStr s).
Lemma sized_lengths atoms (hover : bool) : sized_values atoms -> exists r, (if hover then mapM (fun kv => py_len (snd kv)) atoms else Ok []) = Ok r.
Proof.
  intros H. destruct hover; [|eauto]. destruct (mapM_all_ok (fun kv => py_len (snd kv)) atoms) as (r & R & _); [|eauto].
  intros (k & v) I. destruct (H k v I) as [(l & ->)|(s & ->)]; cbn; eauto.
Qed.
Lemma colors_of_species species : Forall (fun s => In s ("X" :: ATOM_SPECIES)) species ->
  exists cs, mapM color_of (map PStr species) = Ok cs /\ colored species cs /\
    (Forall (fun s => ~ unreadable s) species -> exists ts, mapM get_good_contrast cs = Ok ts) /\
    (Exists unreadable species -> mapM get_good_contrast cs = Err ValueError).
Proof.
  intros F. rewrite Forall_forall in F.
  assert (K : exists cs, mapM color_of (map PStr species) = Ok cs /\ colored species cs).
  { induction species as [|s l IH]; [exists []; split; [reflexivity|constructor]|].
    destruct (C50_table s (F s (or_introl eq_refl))) as (c & C & _). destruct IH as (cs & M & D); [intros; apply F; right; auto|].
    exists (c :: cs). cbn. unfold getitem. rewrite C. cbn [bind]. cbn in M. rewrite M. split; [reflexivity|constructor; auto]. }
  destruct K as (cs & M & D). exists cs. split; [exact M|]. split; [exact D|]. clear M.
  assert (Q : forall c, In c cs -> exists s, In s species /\ lookup s ATOM_COLORS = Some c).
  { clear F. induction D; intros c0; [intros []|]. intros [<-|I]; [exists x; cbn; auto|]. destruct (IHD _ I) as (s & S & E). exists s; cbn; auto. }
  split.
  - intros N. rewrite Forall_forall in N. destruct (mapM_all_ok get_good_contrast cs) as (ts & T & _); [|eauto].
    intros c I. destruct (Q c I) as (s & S & E). destruct (C50_table s (F s S)) as (c' & C & G & _). replace c' with c in * by congruence.
    destruct (G (N s S)) as (t & T & _). eauto.
  - intros X. apply mapM_some_err.
    + intros c I. destruct (Q c I) as (s & S & E). destruct (C50_table s (F s S)) as (c' & C & G & B). replace c' with c in * by congruence.
      destruct (String.eqb_spec s "Pd"), (String.eqb_spec s "Er"); try (right; apply B; unfold unreadable; tauto).
      left. destruct G as (t & T & _); [unfold unreadable; tauto|eauto].
    + rewrite Exists_exists in X. destruct X as (s & S & U).
      assert (W : exists c, In c cs /\ lookup s ATOM_COLORS = Some c).
      { clear -D S. induction D; [destruct S|]. destruct S as [<-|S]; [eexists; split; [left; reflexivity|auto]|]. destruct (IHD S) as (c & I & E). exists c; cbn; auto. }
      destruct W as (c & I & E). exists c. split; auto. destruct (C50_table s (F s S)) as (c' & C & _ & B). replace c' with c in * by congruence. auto.
Qed.
(* the picture made of atoms at given points *)
Definition atoms_drawn (place : Z * Z) (points : list vec) (colors names : list string) (label : option string) (p : prog) : Prop :=
  exists lo hi, p = ([Add (Trace place MarkersText points colors names label); Update place lo hi], None).
Lemma report_drawn place points t : points <> [] -> exists lo hi,
  report place points (fun lo hi => act [Add t; Update place lo hi]) = ([Add t; Update place lo hi], None).
Proof. intros H. destruct points; [congruence|]. cbn. eexists _, _. reflexivity. Qed.

(* atoms with given species *)
Theorem C50_species : forall place cell atoms ps names species label shift hover,
  lookup "positions" atoms = Some (pos_val ps) -> ps <> [] ->
  lookup "names" atoms = Some (PList (map PStr names)) ->
  lookup "species" atoms = Some (PList (map PStr species)) -> Forall (fun s => In s ("X" :: ATOM_SPECIES)) species -> sized_values atoms ->
  let p := plot_atoms place cell atoms DefaultColors label shift hover in
  (Forall (fun s => ~ unreadable s) species -> exists colors, colored species colors /\
     atoms_drawn place (map (fun x => vadd (vmat x cell) shift) ps) colors names label p) /\
  (Exists unreadable species -> p = ([], Some ValueError)).
Proof.
  intros place cell atoms ps names species label shift hover P NE N S F SZ. cbv zeta.
  destruct (colors_of_species species F) as (cs & M & D & G & B). destruct (sized_lengths atoms hover SZ) as (r & R).
  unfold plot_atoms. unfold getitem. rewrite P. cbn [with_res]. rewrite positions_of_val. cbn [with_res].
  destruct ps as [|p0 ps0]; [congruence|]. cbn [length Nat.eqb]. rewrite N, S. cbn [elements bind]. rewrite M. cbn [bind with_res iterate_colors].
  split.
  - intros U. destruct (G U) as (ts & T). rewrite T. cbn [with_res]. rewrite R. cbn [with_res]. exists cs. split; [exact D|].
    replace (map shown_name (map PStr names)) with names by (rewrite map_map; cbn; symmetry; apply map_id).
    unfold atoms_drawn. apply report_drawn. discriminate.
  - intros U. rewrite (B U). reflexivity.
Qed.
Print Assumptions C50_species.
(* atoms with names only: the species are deduced, "X" if that fails *)
Theorem C50_names : forall place cell atoms ps names species label shift hover,
  lookup "positions" atoms = Some (pos_val ps) -> ps <> [] ->
  lookup "names" atoms = Some (PList (map PStr names)) -> lookup "species" atoms = None ->
  mapM (fun n => get_atom_species n false) names = Ok species -> sized_values atoms ->
  let p := plot_atoms place cell atoms DefaultColors label shift hover in
  (Forall (fun s => ~ unreadable s) species -> exists colors, colored species colors /\
     atoms_drawn place (map (fun x => vadd (vmat x cell) shift) ps) colors names label p) /\
  (Exists unreadable species -> p = ([], Some ValueError)).
Proof.
  intros place cell atoms ps names species label shift hover P NE N S Q SZ. cbv zeta.
  assert (F : Forall (fun s => In s ("X" :: ATOM_SPECIES)) species).
  { apply mapM_ok in Q. rewrite Forall_forall. intros s I. clear -Q I. induction Q as [|n s0 l1 l2 E Q IH]; [destruct I|]. destruct I as [<-|I]; auto.
    destruct (C27_sound _ _ _ E) as [(I & _)|(X & _)]; [right; exact I|left; symmetry; exact X]. }
  destruct (colors_of_species species F) as (cs & M & D & G & B). destruct (sized_lengths atoms hover SZ) as (r & R).
  unfold plot_atoms. unfold getitem. rewrite P. cbn [with_res]. rewrite positions_of_val. cbn [with_res].
  destruct ps as [|p0 ps0]; [congruence|]. cbn [length Nat.eqb]. rewrite N, S. cbn [elements].
  assert (E : mapM species_of (map PStr names) = Ok (map PStr species)).
  { clear -Q. revert species Q. induction names as [|n l IH]; cbn; intros sp Q; [injection Q as <-; reflexivity|].
    destruct (get_atom_species n false) as [s|]; [|discriminate]. cbn [bind] in *. destruct (mapM _ l) as [r|]; [|discriminate]. cbn [bind] in Q.
    injection Q as <-. rewrite (IH r eq_refl). reflexivity. }
  rewrite E. cbn [bind]. rewrite M. cbn [bind with_res iterate_colors].
  split.
  - intros U. destruct (G U) as (ts & T). rewrite T. cbn [with_res]. rewrite R. cbn [with_res]. exists cs. split; [exact D|].
    replace (map shown_name (map PStr names)) with names by (rewrite map_map; cbn; symmetry; apply map_id).
    unfold atoms_drawn. apply report_drawn. discriminate.
  - intros U. rewrite (B U). reflexivity.
Qed.
Print Assumptions C50_names.
Lemma deduce_nothing name acc t : (forall s, In s t -> contains (lower s) (lower name) = false) -> deduce name acc t = acc.
Proof. induction t as [|x t IH]; intros H; cbn [deduce]; auto. rewrite (H x (or_introl eq_refl)). apply IH. intros s S. apply H. right. exact S. Qed.
(* atoms with neither: every atom has the colour of "X" and is called X1, X2, ... *)
Lemma digits_no_letters s : all_digits s = true -> no_letters s = true.
Proof.
  induction s as [|c s IH]; cbn; auto. intros H. apply andb_true_iff in H. destruct H as (A & B). rewrite (IH B), andb_true_r.
  revert A. destruct c as [[] [] [] [] [] [] [] []]; cbn; auto; discriminate.
Qed.
Lemma numbered_species i : get_atom_species (String.append "X" (dec i)) false = Ok "X".
Proof.
  unfold get_atom_species. rewrite deduce_nothing; [reflexivity|]. intros t T. destruct (contains (lower t) (lower ("X" ++ dec i))) eqn:C; [|reflexivity]. exfalso.
  destruct (table_lengths t T) as (L & A). rewrite lower_app in C. apply contains_suffix in C; auto.
  - assert (K : forallb (fun t => negb (contains (lower t) "x")) ATOM_SPECIES = true) by (vm_compute; reflexivity).
    rewrite forallb_forall in K. specialize (K t T). change (lower "X") with "x" in C. rewrite C in K. discriminate.
  - intros E. destruct t; [destruct L; discriminate|discriminate].
  - rewrite lower_no_letters. apply digits_no_letters, dec_all_digits.
Qed.
Theorem C50_positions_only : forall place cell atoms ps label shift hover x,
  lookup "positions" atoms = Some (pos_val ps) -> ps <> [] -> lookup "names" atoms = None -> lookup "species" atoms = None -> sized_values atoms ->
  lookup "X" ATOM_COLORS = Some x ->
  exists colors names, atoms_drawn place (map (fun x => vadd (vmat x cell) shift) ps) colors names label
      (plot_atoms place cell atoms DefaultColors label shift hover) /\
    length colors = length ps /\ (forall c, In c colors -> c = x) /\ length names = length ps /\
    forall i, (1 <= i <= length ps)%nat -> nth_error names (i - 1) = Some (String.append "X" (dec i)).
Proof.
  intros place cell atoms ps label shift hover x P NE N S SZ X. destruct (sized_lengths atoms hover SZ) as (r & R).
  unfold plot_atoms. unfold getitem. rewrite P. cbn [with_res]. rewrite positions_of_val. cbn [with_res].
  destruct ps as [|p0 ps0]; [congruence|]. set (ps := p0 :: ps0) in *. replace (Nat.eqb (length ps) 0) with false by reflexivity. cbv iota. rewrite N, S.
  assert (E : mapM species_of (numbered (length ps)) = Ok (repeat (PStr "X") (length ps))).
  { unfold numbered. replace (length ps) with (length (seq 0 (length ps))) at 2 by apply seq_length.
    generalize (seq 0 (length ps)). induction l as [|n l IH]; [reflexivity|]. cbn [map mapM repeat species_of List.length].
    rewrite numbered_species. cbn [bind]. rewrite IH. reflexivity. }
  assert (M : mapM color_of (repeat (PStr "X") (length ps)) = Ok (repeat x (length ps))).
  { clear E. induction (length ps) as [|n IH]; [reflexivity|]. cbn [repeat mapM color_of]. unfold getitem. rewrite X. cbn [bind]. rewrite IH. reflexivity. }
  rewrite E. cbn [bind]. rewrite M. cbn [bind with_res iterate_colors].
  destruct (mapM_all_ok get_good_contrast (repeat x (length ps))) as (ts & T & _).
  { intros c C. apply repeat_spec in C. subst c. destruct (C50_table "X" (or_introl eq_refl)) as (c & C & G & _). replace x with c by congruence.
    destruct G as (t & G & _); [|eauto]. unfold unreadable. intros [H|H]; discriminate. }
  rewrite T. cbn [with_res]. rewrite R. cbn [with_res].
  eexists _, _. split; [unfold atoms_drawn; apply report_drawn; discriminate|].
  split; [apply repeat_length|]. split; [intros c; apply repeat_spec|].
  unfold numbered. rewrite map_map. cbn [shown_name]. rewrite map_length, seq_length. split; [reflexivity|].
  intros i I. rewrite nth_error_map. replace (nth_error (seq 0 (length ps)) (i - 1)) with (Some (i - 1)%nat).
  - cbn [option_map]. replace (i - 1 + 1)%nat with i by lia. reflexivity.
  - symmetry. rewrite (nth_error_nth' _ 0%nat) by (rewrite seq_length; lia). rewrite seq_nth by lia. reflexivity.
Qed.
Print Assumptions C50_positions_only.
(* ... in particular palladium and erbium cannot be drawn in their own colours *)
Theorem C50_palladium_refuted : exists atoms,
  validate_atoms atoms ["positions"; "names"; "species"] true = Ok true /\
  forall place cell label shift hover, plot_atoms place cell atoms DefaultColors label shift hover = ([], Some ValueError).
Proof.
  exists [("names", PList [PStr "Pd1"]); ("species", PList [PStr "Pd"]); ("positions", pos_val [V3 0 0 0])].
  split; [vm_compute; reflexivity|]. intros. eapply (C50_species place cell _ [V3 0 0 0] ["Pd1"] ["Pd"]); try reflexivity.
  - discriminate.
  - apply Forall_cons; [apply mem_true; vm_compute; reflexivity|apply Forall_nil].
  - intros k v [H|[H|[H|[]]]]; injection H as <- <-; left; eexists; reflexivity.
  - left. left. reflexivity.
Qed.
Print Assumptions C50_palladium_refuted.
(* One colour for all atoms, as a str, is documented but never accepted (it is read letter by letter). *)
Theorem C50_one_color_refuted : forall place cell atoms ps s label shift hover, s <> "" ->
  lookup "positions" atoms = Some (pos_val ps) ->
  plot_atoms place cell atoms (OneColor s) label shift hover = ([], Some ValueError).
Proof.
  intros place cell atoms ps s label shift hover NE P. unfold plot_atoms, getitem. rewrite P. cbn [with_res]. rewrite positions_of_val. cbn [with_res].
  destruct (Nat.eqb (length ps) 0); [reflexivity|]. cbn [with_res iterate_colors]. destruct s as [|c s]; [congruence|]. reflexivity.
Qed.
Print Assumptions C50_one_color_refuted.
(* In a list each colour has to be written in hexadecimal digits: the other notations of plotly fail. *)
Theorem C50_color_list : forall place cell atoms ps names colors label shift hover,
  lookup "positions" atoms = Some (pos_val ps) -> ps <> [] -> lookup "names" atoms = Some (PList (map PStr names)) -> sized_values atoms ->
  Forall (fun c => exists r g b, hex_color r g b c) colors ->
  atoms_drawn place (map (fun x => vadd (vmat x cell) shift) ps) colors names label
    (plot_atoms place cell atoms (ColorList colors) label shift hover).
Proof.
  intros place cell atoms ps names colors label shift hover P NE N SZ F. unfold plot_atoms, getitem. rewrite P. cbn [with_res].
  rewrite positions_of_val. cbn [with_res]. destruct ps as [|p0 ps0]; [congruence|]. cbn [length Nat.eqb with_res iterate_colors]. rewrite N. cbn [elements].
  destruct (mapM_all_ok get_good_contrast colors) as (ts & T & _).
  { rewrite Forall_forall in F. intros c I. destruct (F c I) as (r & g & b & H). rewrite (contrast_value _ _ _ _ H). eauto. }
  rewrite T. cbn [with_res]. destruct (sized_lengths atoms hover SZ) as (r & R). rewrite R. cbn [with_res].
  replace (map shown_name (map PStr names)) with names by (rewrite map_map; cbn; symmetry; apply map_id).
  unfold atoms_drawn. apply report_drawn. discriminate.
Qed.
Print Assumptions C50_color_list.
Theorem C50_named_color_refuted : forall place cell atoms ps label shift hover name,
  In name ["red"; "green"; "blue"; "black"; "white"; "rgb(255,0,0)"; "#F00"] ->
  lookup "positions" atoms = Some (pos_val ps) -> ps <> [] ->
  plot_atoms place cell atoms (ColorList [name]) label shift hover = ([], Some ValueError).
Proof.
  intros place cell atoms ps label shift hover name H P NE. unfold plot_atoms, getitem. rewrite P. cbn [with_res]. rewrite positions_of_val. cbn [with_res].
  destruct ps; [congruence|]. cbn [length Nat.eqb with_res iterate_colors].
  cbn [In] in H. repeat destruct H as [<-|H]; try reflexivity. destruct H.
Qed.
Print Assumptions C50_named_color_refuted.
(* non-trivial: two atoms, sodium and chlorine *)
Example C50_case : let atoms := [("names", PList [PStr "Na"; PStr "Cl1"]); ("positions", pos_val [V3 0 0 0; V3 (1 / 2) (1 / 2) (1 / 2)])] in
  mapM (fun n => get_atom_species n false) ["Na"; "Cl1"] = Ok ["Na"; "Cl"] /\ sized_values atoms /\ Forall (fun s => ~ unreadable s) ["Na"; "Cl"].
Proof.
  cbv zeta. split; [vm_compute; reflexivity|]. split.
  - intros k v [H|[H|[]]]; injection H as <- <-; left; eexists; reflexivity.
  - repeat (apply Forall_cons; [intros [|]; discriminate|]). apply Forall_nil.
Qed.
