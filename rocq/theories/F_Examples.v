(* F_Examples.v : files with plain decimal numbers are read by integer arithmetic (property C61). *)
From Verif Require Import Base M_Strings M_Dict M_Geometry M_Atoms M_Spglib M_Primitive M_Poscar F_Conventional F_Voronoi.
From Coq Require Import Lra Lia.
Open Scope string_scope.
Open Scope list_scope.
Open Scope Z_scope.

(* a number with at most 20 decimals, in units of 10^-20 *)
Definition unit20 : Z := 10 ^ 20.
Definition fixed (s : string) : option Z :=
  match drop_underscores false s with
  | None => None
  | Some s =>
      let '(neg, s1) := take_sign s in
      let '(m1, n1, s2) := take_digits 0 0 s1 in
      match s2 with
      | String c s' =>
          if Ascii.eqb c "."%char
          then let '(m2, n2, s3) := take_digits m1 0 s' in
               if (Nat.ltb 0 n1 && Nat.leb n2 20 && negb (nonempty s3))%bool
               then Some ((if neg then - m2 else m2) * 10 ^ Z.of_nat (20 - n2)) else None
          else None
      | EmptyString => None
      end
  end.
Definition real20 (z : Z) : R := (IZR z / IZR unit20)%R.
Lemma fixed_ok s z : fixed s = Some z -> parse_float s = Ok (real20 z).
Proof.
  unfold fixed, parse_float. destruct (drop_underscores false s) as [s0|]; [|discriminate].
  destruct (take_sign s0) as [neg s1]. destruct (take_digits 0 0 s1) as [[m1 n1] s2]. destruct s2 as [|c s']; [discriminate|].
  destruct (Ascii.eqb c "."%char); [|discriminate]. destruct (take_digits m1 0 s') as [[m2 n2] s3].
  destruct (Nat.ltb_spec 0 n1); [|discriminate]. destruct (Nat.leb_spec n2 20); [|discriminate]. destruct s3; [|discriminate].
  cbn [andb negb nonempty]. intros E0. assert (Ez : z = (if neg then - m2 else m2) * 10 ^ Z.of_nat (20 - n2)) by congruence. subst z. clear E0.
  replace (Nat.eqb (n1 + n2) 0) with false by (symmetry; apply Nat.eqb_neq; lia).
  f_equal. unfold real20, pow10, unit20. set (v := if neg then - m2 else m2).
  set (k := (20 - n2)%nat). assert (E : 10 ^ 20 = 10 ^ Z.of_nat n2 * 10 ^ Z.of_nat k) by (rewrite <- Z.pow_add_r by lia; f_equal; unfold k; lia).
  rewrite E, !mult_IZR.
  assert (IZR (10 ^ Z.of_nat n2) <> 0)%R by (apply not_0_IZR; lia).
  assert (IZR (10 ^ Z.of_nat k) <> 0)%R by (apply not_0_IZR; lia). field. auto.
Qed.

Definition fixed3 (ws : list string) : option zvec :=
  match ws with
  | [a; b; c] => match fixed a, fixed b, fixed c with Some x, Some y, Some z => Some (Zv x y z) | _, _, _ => None end
  | _ => None
  end.
Definition vec20 (v : zvec) : vec := V3 (real20 (zx v)) (real20 (zy v)) (real20 (zz v)).
Lemma fixed3_ok ws v : fixed3 ws = Some v -> exists l, mapM parse_float ws = Ok l /\ three l = Ok (vec20 v).
Proof.
  unfold fixed3. destruct ws as [|a [|b [|c [|]]]]; try discriminate.
  destruct (fixed a) eqn:A; [|discriminate]. destruct (fixed b) eqn:B; [|discriminate]. destruct (fixed c) eqn:C; [|discriminate].
  intros E. injection E as <-. cbn [mapM]. rewrite (fixed_ok _ _ A), (fixed_ok _ _ B), (fixed_ok _ _ C). cbn [bind].
  eexists. split; reflexivity.
Qed.
(* the atoms: lines and numbers of species side by side *)
Fixpoint fixed_atoms (names : list string) (la : list string) (idx : list nat) {struct idx} : option (list (string * zvec)) :=
  match idx with
  | [] => Some []
  | i :: idx' =>
      match la with
      | [] => None
      | l :: la' =>
          match fixed3 (firstn 3 (words l)), nth_error names i, fixed_atoms names la' idx' with
          | Some v, Some s, Some r => Some ((s, v) :: r)
          | _, _, _ => None
          end
      end
  end.
Definition load_fixed (lines : list string) : option (zvec * zvec * zvec * list (string * zvec)) :=
  match lines with
  | _ :: l1 :: l2 :: l3 :: l4 :: l5 :: l6 :: l7 :: la =>
      match words l1 with
      | [w] =>
          match fixed w, fixed3 (words l2), fixed3 (words l3), fixed3 (words l4) with
          | Some u, Some a, Some b, Some c =>
              if ((u =? unit20) && existsb (fun s => negb (parses s)) (words l5))%bool
              then match mapM parse_int (words l6), l7 with
                   | Ok counts, String ch _ =>
                       if Ascii.eqb ch "D"%char
                       then match fixed_atoms (words l5) la (species_indices counts 0) with
                            | Some atoms => Some (a, b, c, atoms)
                            | None => None
                            end
                       else None
                   | _, _ => None
                   end
              else None
          | _, _, _, _ => None
          end
      | _ => None
      end
  | _ => None
  end.
Lemma real20_one : real20 unit20 = 1%R.
Proof. unfold real20. apply Rinv_r. apply not_0_IZR. discriminate. Qed.
Lemma mscale_one m : mscale 1 m = m.
Proof. destruct m as [[] [] []]. unfold mscale; vunfold. f_equal; f_equal; ring. Qed.
Lemma read_atoms names cell sc : forall idx la pre atoms,
  fixed_atoms names la idx = Some atoms ->
  mapM (fun ki => read_atom (pre ++ la) (length pre) cell sc false (Some names) (fst ki) (snd ki)) (enumerate idx) =
  Ok (map (fun x => (fst x, vec20 (snd x))) atoms).
Proof.
  intros idx la pre atoms H. unfold enumerate.
  enough (G : forall idx la k pre atoms, length pre = k -> forall base, fixed_atoms names la idx = Some atoms ->
    mapM (fun ki => read_atom (base ++ pre ++ la) (length base) cell sc false (Some names) (fst ki) (snd ki)) (combine (seq k (length idx)) idx) =
    Ok (map (fun x => (fst x, vec20 (snd x))) atoms)).
  { exact (G idx la 0%nat [] atoms eq_refl pre H). }
  clear. induction idx as [|i idx IH]; intros la k pre atoms L base H.
  - cbn in H. injection H as <-. reflexivity.
  - cbn [fixed_atoms] in H. destruct la as [|l la]; [discriminate|]. destruct (fixed3 (firstn 3 (words l))) as [v|] eqn:F; [|discriminate].
    destruct (nth_error names i) as [s|] eqn:N; [|discriminate]. destruct (fixed_atoms names la idx) as [r|] eqn:R; [|discriminate].
    injection H as <-. cbn [length seq combine mapM fst snd map]. unfold read_atom at 1. unfold line.
    rewrite nth_error_app2 by lia. replace (length base + k - length base)%nat with k by lia. rewrite nth_error_app2 by lia.
    rewrite L, Nat.sub_diag. cbn [nth_error bind]. destruct (fixed3_ok _ _ F) as (xs & -> & T3). cbn [bind]. rewrite T3. cbn [bind]. rewrite N. cbn [bind].
    replace (pre ++ l :: la) with ((pre ++ [l]) ++ la) by (rewrite <- app_assoc; reflexivity).
    rewrite (IH la (S k) (pre ++ [l]) r); [reflexivity|rewrite app_length; cbn; lia|auto].
Qed.
Lemma load_fixed_ok lines a b c atoms : load_fixed lines = Some (a, b, c, atoms) ->
  exists comment, load_poscar lines = Ok (M3 (vec20 a) (vec20 b) (vec20 c), map (fun x => (fst x, vec20 (snd x))) atoms, comment).
Proof.
  unfold load_fixed. destruct lines as [|l0 [|l1 [|l2 [|l3 [|l4 [|l5 [|l6 [|l7 la]]]]]]]]; try discriminate.
  destruct (words l1) as [|w [|]] eqn:W; try discriminate. destruct (fixed w) as [u|] eqn:U; [|discriminate].
  destruct (fixed3 (words l2)) as [a'|] eqn:F2; [|discriminate]. destruct (fixed3 (words l3)) as [b'|] eqn:F3; [|discriminate].
  destruct (fixed3 (words l4)) as [c'|] eqn:F4; [|discriminate].
  destruct (Z.eqb_spec u unit20) as [->|]; [|discriminate]. destruct (existsb _ (words l5)) eqn:E5; [|discriminate]. cbn [andb].
  destruct (mapM parse_int (words l6)) as [counts|] eqn:C; [|discriminate]. destruct l7 as [|ch s7]; [discriminate|].
  destruct (Ascii.eqb_spec ch "D"%char) as [->|]; [|discriminate].
  destruct (fixed_atoms (words l5) la (species_indices counts 0)) as [r|] eqn:R; [|discriminate].
  intros E. injection E as -> -> -> ->. eexists. unfold load_poscar. cbn [line nth_error bind].
  unfold parse_floats at 1. rewrite W. cbn [mapM]. rewrite (fixed_ok _ _ U). cbn [bind]. cbn [skipn firstn mapM].
  destruct (fixed3_ok _ _ F2) as (x2 & P2 & T2). destruct (fixed3_ok _ _ F3) as (x3 & P3 & T3). destruct (fixed3_ok _ _ F4) as (x4 & P4 & T4).
  unfold parse_floats. rewrite P2, P3, P4. cbn [bind]. rewrite T2, T3, T4. cbn [bind].
  rewrite real20_one. unfold apply_scale. replace (Rltb 1 0) with false by (symmetry; apply Rltb_false; lra). cbn [bind].
  rewrite mscale_one, E5. cbn [bind]. rewrite C. cbn [bind]. cbn [first_char bind].
  cbn [line nth_error bind first_char].
  change (Ascii.eqb (lower_ascii "D"%char) "s"%char) with false. cbv iota. cbn [line nth_error bind first_char].
  change (Ascii.eqb (lower_ascii "D"%char) "c"%char || Ascii.eqb (lower_ascii "D"%char) "k"%char)%bool with false.
  match goal with |- bind (mapM (fun ki => read_atom _ _ ?cl ?sc _ _ _ _) _) _ = _ =>
    pose proof (read_atoms (words l5) cl sc _ la [l0; l1; l2; l3; l4; l5; l6; String "D"%char s7] atoms R) as Q end.
  cbn [length app] in Q. rewrite Q. reflexivity.
Qed.
