(* P_Examples.v : property C61, hpkot_get_example returns crystals of the requested kind *)
From Verif Require Import Base M_Strings M_Dict M_Geometry M_Atoms M_Poscar T_Atoms T_Tables T_Examples M_Examples S_Zone F_Examples F_Strings.
From Coq Require Import Lra Lia.
Open Scope string_scope.
Open Scope list_scope.
Open Scope R_scope.

(* ---------------- specification ---------------- *)
(* the names: 29 symbols, or their first two letters *)
Definition long_names : list string :=
  ["cP1"; "cP2"; "cF1"; "cF2"; "cI1"; "tP1"; "tI1"; "tI2"; "oP1"; "oF1"; "oF2"; "oF3"; "oI1"; "oI2"; "oI3"; "oC1"; "oC2"; "oA1"; "oA2";
   "hP1"; "hP2"; "hR1"; "hR2"; "mP1"; "mC1"; "mC2"; "mC3"; "aP2"; "aP3"].
Definition short_names : list string :=
  ["cP"; "cF"; "cI"; "tP"; "tI"; "oP"; "oF"; "oI"; "oC"; "oA"; "hP"; "hR"; "mP"; "mC"; "aP"].
Definition not_available : list string := ["oF2"; "oI2"; "oA1"; "oA2"].

Definition near (tol x y : R) : Prop := Rabs (x - y) <= tol.
Definition near_integer (tol x : R) : Prop := exists z : Z, near tol x (IZR z).
(* equal up to a lattice vector, in relative coordinates *)
Definition same_place (tol : R) (p q : vec) : Prop :=
  near_integer tol (vx p - vx q) /\ near_integer tol (vy p - vy q) /\ near_integer tol (vz p - vz q).
(* the inversion in the point c is a symmetry *)
Definition has_inversion (tol : R) (atoms : list (string * vec)) : Prop :=
  exists c, forall s p, In (s, p) atoms -> exists q, In (s, q) atoms /\ same_place tol (vsub (vscale 2 c) p) q.
(* the translation by d is a symmetry *)
Definition has_translation (tol : R) (d : vec) (atoms : list (string * vec)) : Prop :=
  forall s p, In (s, p) atoms -> exists q, In (s, q) atoms /\ same_place tol (vadd p d) q.

(* shapes of cells with a tolerance, lengths squared *)
Definition rhombohedral_cell (tol : R) (c : mat) : Prop :=
  near tol (dot (row1 c) (row1 c)) (dot (row2 c) (row2 c)) /\ near tol (dot (row1 c) (row1 c)) (dot (row3 c) (row3 c)) /\
  near tol (dot (row1 c) (row2 c)) (dot (row1 c) (row3 c)) /\ near tol (dot (row1 c) (row2 c)) (dot (row2 c) (row3 c)).
Definition hexagonal_cell (tol : R) (c : mat) : Prop :=
  near tol (dot (row1 c) (row1 c)) (dot (row2 c) (row2 c)) /\ near tol (dot (row1 c) (row3 c)) 0 /\ near tol (dot (row2 c) (row3 c)) 0 /\
  near tol (2 * dot (row1 c) (row2 c)) (- dot (row1 c) (row1 c)).
Definition right_cell (tol : R) (c : mat) : Prop :=
  near tol (dot (row1 c) (row2 c)) 0 /\ near tol (dot (row1 c) (row3 c)) 0 /\ near tol (dot (row2 c) (row3 c)) 0.
Definition family_fits (tol : R) (family : ascii) (c : mat) : Prop :=
  match family with
  | "c"%char => right_cell tol c /\ near tol (dot (row1 c) (row1 c)) (dot (row2 c) (row2 c)) /\ near tol (dot (row1 c) (row1 c)) (dot (row3 c) (row3 c))
  | "t"%char => right_cell tol c /\ near tol (dot (row1 c) (row1 c)) (dot (row2 c) (row2 c))
  | "o"%char => right_cell tol c
  | "m"%char => near tol (dot (row1 c) (row2 c)) 0 /\ near tol (dot (row2 c) (row3 c)) 0
  | "h"%char => hexagonal_cell tol c \/ rhombohedral_cell tol c
  | _ => True
  end.
Definition centring_fits (tol : R) (letter : ascii) (c : mat) (atoms : list (string * vec)) : Prop :=
  match letter with
  | "I"%char => has_translation tol (V3 (1/2) (1/2) (1/2)) atoms
  | "F"%char => has_translation tol (V3 0 (1/2) (1/2)) atoms /\ has_translation tol (V3 (1/2) 0 (1/2)) atoms /\ has_translation tol (V3 (1/2) (1/2) 0) atoms
  | "C"%char => has_translation tol (V3 (1/2) (1/2) 0) atoms
  | "A"%char => has_translation tol (V3 0 (1/2) (1/2)) atoms
  | "R"%char => rhombohedral_cell tol c \/ hexagonal_cell tol c /\ has_translation tol (V3 (2/3) (1/3) (1/3)) atoms
  | _ => True
  end.
(* the inequality between the lengths and angles that the number of the symbol stands for (Hinuma et al. 2017,
   Table 94), for the lattices where the file keeps the standard axes; lengths squared and scalar products *)
Definition variant_fits (symbol : string) (c : mat) : Prop :=
  let aa := dot (row1 c) (row1 c) in let bb := dot (row2 c) (row2 c) in let cc := dot (row3 c) (row3 c) in
  let ac := dot (row1 c) (row3 c) in
  (symbol = "tI1" -> cc <= aa) /\ (symbol = "tI2" -> aa < cc) /\
  (symbol = "oF1" -> 1 / aa > 1 / bb + 1 / cc) /\ (symbol = "oF2" -> 1 / cc > 1 / aa + 1 / bb) /\
  (symbol = "oF3" -> 1 / aa < 1 / bb + 1 / cc /\ 1 / bb < 1 / aa + 1 / cc /\ 1 / cc < 1 / aa + 1 / bb) /\
  (symbol = "oC1" -> aa <= bb) /\ (symbol = "oC2" -> bb < aa) /\ (symbol = "oA1" -> bb <= cc) /\ (symbol = "oA2" -> cc < bb) /\
  (symbol = "hR1" -> hexagonal_cell (1/100000) c /\ 3 * aa <= 2 * cc \/ rhombohedral_cell (1/100000) c /\ 0 <= ac) /\
  (symbol = "hR2" -> hexagonal_cell (1/100000) c /\ 2 * cc < 3 * aa \/ rhombohedral_cell (1/100000) c /\ ac < 0) /\
  (symbol = "mC1" -> bb <= aa - ac * ac / cc) /\
  (symbol = "mC2" -> aa - ac * ac / cc < bb /\ - ac / cc + (aa - ac * ac / cc) / bb <= 1) /\
  (symbol = "mC3" -> aa - ac * ac / cc < bb /\ 1 < - ac / cc + (aa - ac * ac / cc) / bb).
(* a crystal that every function accepts: a cell with a volume, at least one atom, known species that
   can be told from the names, atoms in the cell and at different places *)
Definition crystal_ok (c : mat) (atoms : list (string * vec)) : Prop :=
  det c <> 0 /\ atoms <> [] /\
  (forall s p, In (s, p) atoms -> In s ATOM_SPECIES /\ get_atom_species s true = Ok s /\ 0 <= vx p < 1 /\ 0 <= vy p < 1 /\ 0 <= vz p < 1) /\
  (forall i j x y, nth_error atoms i = Some x -> nth_error atoms j = Some y -> i <> j -> ~ same_place (1/20) (snd x) (snd y)).
(* family and centring are the first two letters of the symbol *)
Definition letters (symbol : string) (f l : ascii) : Prop := exists rest, symbol = String f (String l rest).
(* two letters stand for the first variation *)
Definition stands_for (symbol full : string) : Prop :=
  In symbol long_names /\ full = symbol \/
  In symbol short_names /\ symbol <> "aP" /\ full = String.append symbol "1" \/
  symbol = "aP" /\ full = "aP2".
Definition of_kind (symbol : string) (inversion : bool) (c : mat) (atoms : list (string * vec)) : Prop :=
  crystal_ok c atoms /\
  (forall f l, letters symbol f l -> family_fits (1/100000) f c /\ centring_fits (1/100000) l c atoms) /\
  variant_fits symbol c /\
  (if inversion then has_inversion (1/100000) atoms else ~ has_inversion (1/100) atoms).

(* ---------------- checks with integers, in units of 10^-20 ---------------- *)
Lemma forallb_ext {A} (f g : A -> bool) l : (forall x, f x = g x) -> forallb f l = forallb g l.
Proof. intros H. induction l as [|x l IH]; cbn; [reflexivity|]. rewrite H, IH. reflexivity. Qed.
Lemma existsb_ext {A} (f g : A -> bool) l : (forall x, f x = g x) -> existsb f l = existsb g l.
Proof. intros H. induction l as [|x l IH]; cbn; [reflexivity|]. rewrite H, IH. reflexivity. Qed.
(* the same as forallb, existsb and andb, without evaluating what is not needed *)
Fixpoint all_of {A} (f : A -> bool) (l : list A) : bool := match l with [] => true | x :: l' => if f x then all_of f l' else false end.
Fixpoint some_of {A} (f : A -> bool) (l : list A) : bool := match l with [] => false | x :: l' => if f x then true else some_of f l' end.
Lemma all_of_eq {A} (f : A -> bool) l : all_of f l = forallb f l.
Proof. induction l as [|x l IH]; cbn; [reflexivity|]. rewrite IH. destruct (f x); reflexivity. Qed.
Lemma some_of_eq {A} (f : A -> bool) l : some_of f l = existsb f l.
Proof. induction l as [|x l IH]; cbn; [reflexivity|]. rewrite IH. destruct (f x); reflexivity. Qed.
Lemma if_and (a b : bool) : (if a then b else false) = (a && b)%bool.
Proof. destruct a; reflexivity. Qed.
Definition nearZ (t x y : Z) : bool := (Z.abs (x - y) <=? t)%Z.
Definition near_integerZ (t x : Z) : bool := let r := (x mod unit20)%Z in ((r <=? t) || (unit20 - r <=? t))%Z.
Definition same_placeZ (t : Z) (p q : zvec) : bool :=
  if near_integerZ t (zx p - zx q) then (if near_integerZ t (zy p - zy q) then near_integerZ t (zz p - zz q) else false) else false.
Definition zadd (p q : zvec) : zvec := (Zv (zx p + zx q) (zy p + zy q) (zz p + zz q))%Z.
Definition zsub (p q : zvec) : zvec := (Zv (zx p - zx q) (zy p - zy q) (zz p - zz q))%Z.
Definition zdot (p q : zvec) : Z := (zx p * zx q + zy p * zy q + zz p * zz q)%Z.
Definition zatoms := list (string * zvec).
(* every atom p has a partner q of its species with q at g p *)
Definition invariantZ (t : Z) (g : zvec -> zvec) (atoms : zatoms) : bool :=
  all_of (fun x => let gx := g (snd x) in some_of (fun y => if String.eqb (fst x) (fst y) then same_placeZ t gx (snd y) else false) atoms) atoms.
Lemma invariantZ_eq t g atoms : invariantZ t g atoms =
  forallb (fun x => existsb (fun y => (String.eqb (fst x) (fst y) && same_placeZ t (g (snd x)) (snd y))%bool) atoms) atoms.
Proof.
  unfold invariantZ. rewrite all_of_eq. apply forallb_ext. intros x. cbv zeta. rewrite some_of_eq. apply existsb_ext. intros y. apply if_and.
Qed.
(* the first atom goes to some atom of its species *)
Definition inversionZ (t : Z) (atoms : zatoms) : bool :=
  match atoms with
  | [] => false
  | (s0, p0) :: _ => some_of (fun y => if String.eqb s0 (fst y) then invariantZ t (fun p => zsub (zadd p0 (snd y)) p) atoms else false) atoms
  end.
Lemma inversionZ_eq t s0 p0 l : inversionZ t ((s0, p0) :: l) =
  existsb (fun y => (String.eqb s0 (fst y) && invariantZ t (fun p => zsub (zadd p0 (snd y)) p) ((s0, p0) :: l))%bool) ((s0, p0) :: l).
Proof. unfold inversionZ. rewrite some_of_eq. apply existsb_ext. intros y. apply if_and. Qed.

Lemma unit20_pos : (0 < unit20)%Z.
Proof. reflexivity. Qed.
Lemma unit20_R : 0 < IZR unit20.
Proof. apply IZR_lt, unit20_pos. Qed.
Lemma real20_add x y : real20 (x + y) = real20 x + real20 y.
Proof. unfold real20. rewrite plus_IZR. pose proof unit20_R. field. lra. Qed.
Lemma real20_sub x y : real20 (x - y) = real20 x - real20 y.
Proof. unfold real20. rewrite minus_IZR. pose proof unit20_R. field. lra. Qed.
Lemma real20_le x y : (x <= y)%Z <-> real20 x <= real20 y.
Proof.
  unfold real20. pose proof unit20_R. split; intros H0.
  - apply Rmult_le_compat_r; [left; apply Rinv_0_lt_compat; auto|apply IZR_le; auto].
  - apply le_IZR. apply (Rmult_le_reg_r (/ IZR unit20)); [apply Rinv_0_lt_compat; auto|auto].
Qed.
Lemma real20_lt x y : (x < y)%Z <-> real20 x < real20 y.
Proof. pose proof (real20_le y x). split; intros; [apply Rnot_le_lt; intros F; apply H in F; lia|apply Z.nle_gt; intros F; apply H in F; lra]. Qed.
Lemma real20_abs x : Rabs (real20 x) = real20 (Z.abs x).
Proof.
  unfold real20. rewrite abs_IZR. unfold Rdiv. rewrite Rabs_mult. f_equal. apply Rabs_right. left. apply Rinv_0_lt_compat, unit20_R.
Qed.
Lemma real20_unit z : real20 (z * unit20) = IZR z.
Proof. unfold real20. rewrite mult_IZR. pose proof unit20_R. field. lra. Qed.
Lemma near_integerZ_ok t x : (0 <= t)%Z -> near_integerZ t x = true <-> near_integer (real20 t) (real20 x).
Proof.
  intros T. unfold near_integerZ, near_integer, near. pose proof unit20_pos as U.
  pose proof (Z.mod_pos_bound x unit20 U) as B. pose proof (Z.div_mod x unit20 ltac:(lia)) as D.
  split.
  - intros H. apply orb_true_iff in H. destruct H as [H|H]; apply Z.leb_le in H.
    + exists (x / unit20)%Z. rewrite <- real20_unit, <- real20_sub, real20_abs. apply real20_le. lia.
    + exists (x / unit20 + 1)%Z. rewrite <- real20_unit, <- real20_sub, real20_abs. apply real20_le. lia.
  - intros (z & H). rewrite <- real20_unit, <- real20_sub, real20_abs in H. apply real20_le in H.
    apply orb_true_iff. rewrite !Z.leb_le.
    assert (z <= x / unit20 \/ x / unit20 + 1 <= z)%Z as [C|C] by lia; [left|right]; nia.
Qed.
Lemma same_placeZ_ok t p q : (0 <= t)%Z -> same_placeZ t p q = true <-> same_place (real20 t) (vec20 p) (vec20 q).
Proof.
  intros T. unfold same_placeZ, same_place, vec20. cbn [Base.vx Base.vy Base.vz]. rewrite !if_and, !andb_true_iff, !near_integerZ_ok, !real20_sub by auto. tauto.
Qed.

Definition real_atoms (l : zatoms) : list (string * vec) := map (fun x => (fst x, vec20 (snd x))) l.
Lemma in_real l s p : In (s, p) (real_atoms l) <-> exists q, p = vec20 q /\ In (s, q) l.
Proof.
  unfold real_atoms. rewrite in_map_iff. split.
  - intros ([s' q] & E & H). injection E as <- <-. eauto.
  - intros (q & -> & H). exists (s, q). auto.
Qed.
Lemma vec20_zero_sub p0 q p : vsub (vadd (vec20 p0) (vec20 q)) (vec20 p) = vec20 (zsub (zadd p0 q) p).
Proof. unfold vec20, zsub, zadd, vsub, vadd. cbn [Base.vx Base.vy Base.vz Base.zx Base.zy Base.zz]. rewrite !real20_sub, !real20_add. reflexivity. Qed.

Lemma inversion_yes t l : (0 <= t)%Z -> inversionZ t l = true -> has_inversion (real20 t) (real_atoms l).
Proof.
  intros T H. destruct l as [|[s0 p0] l0]; [discriminate|]. set (l := (s0, p0) :: l0) in *. unfold l in H. rewrite inversionZ_eq in H. fold l in H.
  apply existsb_exists in H. destruct H as ([s1 q1] & _ & H). apply andb_true_iff in H. destruct H as [_ H]. cbn [snd] in H.
  exists (vscale (1/2) (vadd (vec20 p0) (vec20 q1))). intros s p Hp. apply in_real in Hp. destruct Hp as (pz & -> & Hp).
  rewrite invariantZ_eq, forallb_forall in H. specialize (H _ Hp). apply existsb_exists in H. destruct H as ([s2 q] & Hq & H).
  cbn [fst snd] in H. apply andb_true_iff in H. destruct H as [E H]. apply String.eqb_eq in E. subst s2.
  exists (vec20 q). split; [apply in_real; eauto|].
  replace (vscale 2 (vscale (1 / 2) (vadd (vec20 p0) (vec20 q1)))) with (vadd (vec20 p0) (vec20 q1)) by (unfold vec20; vunfold; f_equal; field).
  rewrite vec20_zero_sub. apply same_placeZ_ok; auto.
Qed.
Lemma near_integer_diff t x y : near_integer t x -> near_integer t y -> near_integer (2 * t) (x - y).
Proof.
  intros (a & A) (b & B). exists (a - b)%Z. unfold near in *. rewrite minus_IZR.
  replace (x - y - (IZR a - IZR b)) with ((x - IZR a) - (y - IZR b)) by ring.
  eapply Rle_trans; [apply Rabs_triang|]. rewrite Rabs_Ropp. lra.
Qed.
Lemma inversion_no t l : (0 <= t)%Z -> l <> [] -> inversionZ (2 * t) l = false -> ~ has_inversion (real20 t) (real_atoms l).
Proof.
  intros T NE H (c & HC). destruct l as [|[s0 p0] l0]; [congruence|]. set (l := (s0, p0) :: l0) in *.
  enough (inversionZ (2 * t) l = true) by congruence.
  destruct (HC s0 (vec20 p0)) as (q0 & Hq0 & S0); [apply in_real; exists p0; split; [auto|left; auto]|].
  apply in_real in Hq0. destruct Hq0 as (qz & -> & Hqz).
  unfold l. rewrite inversionZ_eq. fold l.
  apply existsb_exists. exists (s0, qz). split; [auto|]. apply andb_true_iff. split; [apply String.eqb_refl|].
  rewrite invariantZ_eq. apply forallb_forall. intros [s p] Hp. cbn [fst snd]. apply existsb_exists.
  destruct (HC s (vec20 p)) as (q & Hq & S1); [apply in_real; eauto|]. apply in_real in Hq. destruct Hq as (q1 & -> & Hq1).
  exists (s, q1). split; [auto|]. cbn [fst snd]. apply andb_true_iff. split; [apply String.eqb_refl|].
  apply same_placeZ_ok; [lia|]. rewrite <- vec20_zero_sub.
  assert (E2 : real20 (2 * t) = 2 * real20 t) by (replace (2 * t)%Z with (t + t)%Z by lia; rewrite real20_add; ring). rewrite E2.
  destruct S0 as (A & B & D), S1 as (A1 & B1 & D1). unfold same_place, vec20, vscale, vsub, vadd in *. cbn [Base.vx Base.vy Base.vz] in *.
  split; [|split].
  - replace (real20 (zx p0) + real20 (zx qz) - real20 (zx p) - real20 (zx q1)) with (2 * vx c - real20 (zx p) - real20 (zx q1) - (2 * vx c - real20 (zx p0) - real20 (zx qz))) by ring.
    apply near_integer_diff; auto.
  - replace (real20 (zy p0) + real20 (zy qz) - real20 (zy p) - real20 (zy q1)) with (2 * vy c - real20 (zy p) - real20 (zy q1) - (2 * vy c - real20 (zy p0) - real20 (zy qz))) by ring.
    apply near_integer_diff; auto.
  - replace (real20 (zz p0) + real20 (zz qz) - real20 (zz p) - real20 (zz q1)) with (2 * vz c - real20 (zz p) - real20 (zz q1) - (2 * vz c - real20 (zz p0) - real20 (zz qz))) by ring.
    apply near_integer_diff; auto.
Qed.

Lemma dot20 p q : dot (vec20 p) (vec20 q) = IZR (zdot p q) / (IZR unit20 * IZR unit20).
Proof. unfold vec20, real20, zdot, dot. cbn [Base.vx Base.vy Base.vz]. rewrite !plus_IZR, !mult_IZR. pose proof unit20_R. field. lra. Qed.
Definition zmat20 := (zvec * zvec * zvec)%type.
Definition tol2 : Z := (10 ^ 35)%Z.
Lemma near20 x y : nearZ tol2 x y = true -> near (1/100000) (IZR x / (IZR unit20 * IZR unit20)) (IZR y / (IZR unit20 * IZR unit20)).
Proof.
  unfold nearZ, near. intros H. apply Z.leb_le in H. pose proof unit20_R as U.
  replace (IZR x / (IZR unit20 * IZR unit20) - IZR y / (IZR unit20 * IZR unit20)) with (IZR (x - y) / (IZR unit20 * IZR unit20)) by (rewrite minus_IZR; field; lra).
  unfold Rdiv at 1. rewrite Rabs_mult, <- abs_IZR. rewrite (Rabs_right (/ _)) by (left; apply Rinv_0_lt_compat; nra).
  apply IZR_le in H. apply (Rmult_le_reg_r (IZR unit20 * IZR unit20)); [nra|]. rewrite Rmult_assoc, Rinv_l, Rmult_1_r by nra.
  rewrite <- mult_IZR. replace (IZR (unit20 * unit20)) with (100000 * IZR tol2) by (rewrite <- mult_IZR; apply f_equal; vm_compute; reflexivity). lra.
Qed.
Lemma near20_0 x : nearZ tol2 x 0 = true -> near (1/100000) (IZR x / (IZR unit20 * IZR unit20)) 0.
Proof. intros H. apply near20 in H. replace 0 with (IZR 0 / (IZR unit20 * IZR unit20)); [auto|]. unfold Rdiv. rewrite Rmult_0_l. reflexivity. Qed.

Section Checks.
  Context (a b c : zvec).
  Let cell := M3 (vec20 a) (vec20 b) (vec20 c).
  Definition rightZ : bool := (nearZ tol2 (zdot a b) 0 && nearZ tol2 (zdot a c) 0 && nearZ tol2 (zdot b c) 0)%bool.
  Definition rhombohedralZ : bool :=
    (nearZ tol2 (zdot a a) (zdot b b) && nearZ tol2 (zdot a a) (zdot c c) && nearZ tol2 (zdot a b) (zdot a c) && nearZ tol2 (zdot a b) (zdot b c))%bool.
  Definition hexagonalZ : bool :=
    (nearZ tol2 (zdot a a) (zdot b b) && nearZ tol2 (zdot a c) 0 && nearZ tol2 (zdot b c) 0 && nearZ tol2 (2 * zdot a b) (- zdot a a))%bool.
  Definition familyZ (f : ascii) : bool :=
    (match f with
    | "c"%char => rightZ && nearZ tol2 (zdot a a) (zdot b b) && nearZ tol2 (zdot a a) (zdot c c)
    | "t"%char => rightZ && nearZ tol2 (zdot a a) (zdot b b)
    | "o"%char => rightZ
    | "m"%char => nearZ tol2 (zdot a b) 0 && nearZ tol2 (zdot b c) 0
    | "h"%char => hexagonalZ || rhombohedralZ
    | _ => true
    end)%bool.
  Lemma rightZ_ok : rightZ = true -> right_cell (1/100000) cell.
  Proof.
    unfold rightZ, right_cell, cell. cbn [row1 row2 row3]. rewrite !andb_true_iff, !dot20. intros ((A & B) & C).
    auto using near20_0.
  Qed.
  Lemma rhombohedralZ_ok : rhombohedralZ = true -> rhombohedral_cell (1/100000) cell.
  Proof.
    unfold rhombohedralZ, rhombohedral_cell, cell. cbn [row1 row2 row3]. rewrite !andb_true_iff, !dot20. intros (((A & B) & C) & D).
    auto using near20.
  Qed.
  Lemma hexagonalZ_ok : hexagonalZ = true -> hexagonal_cell (1/100000) cell.
  Proof.
    unfold hexagonalZ, hexagonal_cell, cell. cbn [row1 row2 row3]. rewrite !andb_true_iff, !dot20. intros (((A & B) & C) & D).
    repeat split; auto using near20, near20_0. apply near20 in D. rewrite mult_IZR, opp_IZR in D. pose proof unit20_R.
    replace (2 * (IZR (zdot a b) / (IZR unit20 * IZR unit20))) with (2 * IZR (zdot a b) / (IZR unit20 * IZR unit20)) by (field; lra).
    replace (- (IZR (zdot a a) / (IZR unit20 * IZR unit20))) with (- IZR (zdot a a) / (IZR unit20 * IZR unit20)) by (field; lra). exact D.
  Qed.
  Lemma familyZ_ok f : familyZ f = true -> family_fits (1/100000) f cell.
  Proof.
    unfold familyZ, family_fits. destruct f as [[] [] [] [] [] [] [] []]; auto; rewrite ?andb_true_iff, ?orb_true_iff; intros H.
    all: unfold cell; cbn [row1 row2 row3]; rewrite ?dot20; fold cell.
    all: intuition auto using rightZ_ok, rhombohedralZ_ok, hexagonalZ_ok, near20, near20_0.
  Qed.
  Lemma le20 x y : (x <=? y)%Z = true -> IZR x / (IZR unit20 * IZR unit20) <= IZR y / (IZR unit20 * IZR unit20).
  Proof. intros H. apply Z.leb_le, IZR_le in H. pose proof unit20_R. apply Rmult_le_compat_r; auto. left. apply Rinv_0_lt_compat. nra. Qed.
  Lemma lt20 x y : (x <? y)%Z = true -> IZR x / (IZR unit20 * IZR unit20) < IZR y / (IZR unit20 * IZR unit20).
  Proof. intros H. apply Z.ltb_lt, IZR_lt in H. pose proof unit20_R. apply Rmult_lt_compat_r; auto. apply Rinv_0_lt_compat. nra. Qed.
  (* 1/x > 1/y + 1/z *)
  Definition invZ (x y z : Z) : bool := (x * (y + z) <? y * z)%Z.
  Definition variantZ (symbol : string) : bool :=
    let aa := zdot a a in let bb := zdot b b in let cc := zdot c c in let ac := zdot a c in
    ((0 <? aa) && (0 <? bb) && (0 <? cc) &&
     (if String.eqb symbol "tI1" then cc <=? aa else if String.eqb symbol "tI2" then aa <? cc
      else if String.eqb symbol "oF1" then invZ aa bb cc else if String.eqb symbol "oF2" then invZ cc aa bb
      else if String.eqb symbol "oF3" then (bb * cc <? aa * (bb + cc)) && (aa * cc <? bb * (aa + cc)) && (aa * bb <? cc * (aa + bb))
      else if String.eqb symbol "oC1" then aa <=? bb else if String.eqb symbol "oC2" then bb <? aa
      else if String.eqb symbol "oA1" then bb <=? cc else if String.eqb symbol "oA2" then cc <? bb
      else if String.eqb symbol "hR1" then (hexagonalZ && (3 * aa <=? 2 * cc)) || (rhombohedralZ && (0 <=? ac))
      else if String.eqb symbol "hR2" then (hexagonalZ && (2 * cc <? 3 * aa)) || (rhombohedralZ && (ac <? 0))
      else if String.eqb symbol "mC1" then bb * cc <=? aa * cc - ac * ac
      else if String.eqb symbol "mC2" then (aa * cc - ac * ac <? bb * cc) && (- ac * bb + (aa * cc - ac * ac) <=? bb * cc)
      else if String.eqb symbol "mC3" then (aa * cc - ac * ac <? bb * cc) && (bb * cc <? - ac * bb + (aa * cc - ac * ac))
      else true))%Z%bool.
End Checks.

Section Reals.
  Context (u x y z : R) (U : 0 < u) (X : 0 < x) (Y : 0 < y) (Z : 0 < z).
  Lemma inv_gt : x * (y + z) < y * z -> 1 / (x / u) > 1 / (y / u) + 1 / (z / u).
  Proof.
    intros H. apply Rminus_gt. replace (1 / (x / u) - (1 / (y / u) + 1 / (z / u))) with (u * (y * z - x * (y + z)) * (/ x * / y * / z)) by (field; lra).
    apply Rmult_lt_0_compat; [apply Rmult_lt_0_compat; lra|]. repeat apply Rmult_lt_0_compat; apply Rinv_0_lt_compat; auto.
  Qed.
  Lemma inv_lt : y * z < x * (y + z) -> 1 / (x / u) < 1 / (y / u) + 1 / (z / u).
  Proof.
    intros H. apply Rminus_lt. enough (0 < 1 / (y / u) + 1 / (z / u) - 1 / (x / u)) by lra.
    replace (1 / (y / u) + 1 / (z / u) - 1 / (x / u)) with (u * (x * (y + z) - y * z) * (/ x * / y * / z)) by (field; lra).
    apply Rmult_lt_0_compat; [apply Rmult_lt_0_compat; lra|]. repeat apply Rmult_lt_0_compat; apply Rinv_0_lt_compat; auto.
  Qed.
  (* x = a.a, y = b.b, z = c.c, w = a.c *)
  Lemma height w : x / u - w / u * (w / u) / (z / u) - y / u = (x * z - w * w - y * z) * (/ u * / z).
  Proof. field. lra. Qed.
  Lemma mono w : - (w / u) / (z / u) + (x / u - w / u * (w / u) / (z / u)) / (y / u) - 1 = (- w * y + (x * z - w * w) - y * z) * (/ y * / z).
  Proof. field. lra. Qed.
  Lemma uz_pos : 0 < / u * / z.
  Proof. apply Rmult_lt_0_compat; apply Rinv_0_lt_compat; auto. Qed.
  Lemma yz_pos : 0 < / y * / z.
  Proof. apply Rmult_lt_0_compat; apply Rinv_0_lt_compat; auto. Qed.
End Reals.
Lemma sign_le p q x y : 0 < q -> x - y = p * q -> 0 <= p -> y <= x.
Proof. intros. assert (0 <= p * q) by (apply Rmult_le_pos; lra). lra. Qed.
Lemma sign_lt p q x y : 0 < q -> x - y = p * q -> 0 < p -> y < x.
Proof. intros. assert (0 < p * q) by (apply Rmult_lt_0_compat; lra). lra. Qed.
Ltac to_reals :=
  repeat match goal with
  | H : (_ <=? _)%Z = true |- _ => apply Z.leb_le, IZR_le in H
  | H : (_ <? _)%Z = true |- _ => apply Z.ltb_lt, IZR_lt in H
  end;
  repeat match goal with H : _ |- _ => progress rewrite ?plus_IZR, ?minus_IZR, ?mult_IZR, ?opp_IZR in H end.
Lemma variantZ_ok a b c symbol : variantZ a b c symbol = true -> variant_fits symbol (M3 (vec20 a) (vec20 b) (vec20 c)).
Proof.
  unfold variantZ, variant_fits. cbn [row1 row2 row3]. intros H. rewrite !andb_true_iff in H. destruct H as (((A & B) & C) & H).
  pose proof (rhombohedralZ_ok a b c) as RH. pose proof (hexagonalZ_ok a b c) as HX.
  rewrite !dot20.
  assert (U : 0 < IZR unit20 * IZR unit20) by (pose proof unit20_R; nra). set (u := IZR unit20 * IZR unit20) in *.
  assert (IU : 0 < / u) by (apply Rinv_0_lt_compat; auto).
  set (aa := zdot a a) in *. set (bb := zdot b b) in *. set (cc := zdot c c) in *. set (ac := zdot a c) in *.
  unfold invZ in H. apply Z.ltb_lt, IZR_lt in A, B, C.
  pose proof (uz_pos u (IZR cc) U C) as UZ. pose proof (yz_pos (IZR bb) (IZR cc) B C) as YZ.
  pose proof (height u (IZR aa) (IZR bb) (IZR cc) U C (IZR ac)) as HE. pose proof (mono u (IZR aa) (IZR bb) (IZR cc) U B C (IZR ac)) as MO.
  repeat match goal with |- _ /\ _ => split end; intros ->; cbn [String.eqb Ascii.eqb Bool.eqb] in H; rewrite ?andb_true_iff, ?orb_true_iff, ?andb_true_iff in H.
  all: repeat match goal with K : _ /\ _ |- _ => destruct K end; try match goal with K : _ \/ _ |- _ => destruct K as [(? & ?)|(? & ?)] end; to_reals.
  all: repeat match goal with |- _ /\ _ => split end.
  all: try (apply inv_gt; auto; lra). all: try (apply inv_lt; auto; lra).
  all: try (left; split; [auto|unfold Rdiv; nra]; fail). all: try (right; split; [auto|unfold Rdiv; nra]; fail).
  all: try (unfold Rdiv; nra).
  all: try (eapply sign_le; [exact UZ|exact HE|lra]). all: try (eapply sign_lt; [exact YZ|exact MO|lra]).
  all: assert (E0 : forall p q r s : R, p - q = r * s -> q - p = (- r) * s) by (intros; lra).
  all: apply E0 in HE; apply E0 in MO.
  all: try (eapply sign_lt; [exact UZ|exact HE|lra]). all: try (eapply sign_le; [exact YZ|exact MO|lra]).
Qed.

(* translations: d is within 10^-6 of dz, which is checked within 5 * 10^-6 *)
Definition tolT : Z := (5 * 10 ^ 14)%Z.
Lemma near_integer_shift t e x y : near_integer t x -> Rabs (y - x) <= e -> near_integer (t + e) y.
Proof.
  intros (z & H) E. exists z. unfold near in *. replace (y - IZR z) with ((x - IZR z) + (y - x)) by ring.
  eapply Rle_trans; [apply Rabs_triang|]. lra.
Qed.
Lemma near_integer_weaken t t' x : t <= t' -> near_integer t x -> near_integer t' x.
Proof. intros L (z & H). exists z. unfold near in *. lra. Qed.
Lemma translation_ok d dz l :
  Rabs (vx d - real20 (zx dz)) <= 1/1000000 -> Rabs (vy d - real20 (zy dz)) <= 1/1000000 -> Rabs (vz d - real20 (zz dz)) <= 1/1000000 ->
  invariantZ tolT (zadd dz) l = true -> has_translation (1/100000) d (real_atoms l).
Proof.
  intros X Y Z0 H s p Hp. apply in_real in Hp. destruct Hp as (pz & -> & Hp). rewrite invariantZ_eq, forallb_forall in H.
  specialize (H _ Hp). apply existsb_exists in H. destruct H as ([s2 q] & Hq & H). cbn [fst snd] in H. apply andb_true_iff in H.
  destruct H as [E H]. apply String.eqb_eq in E. subst s2. exists (vec20 q). split; [apply in_real; eauto|].
  apply same_placeZ_ok in H; [|vm_compute; discriminate]. unfold same_place, vadd, vec20, zadd in *. cbn [Base.vx Base.vy Base.vz Base.zx Base.zy Base.zz] in *.
  rewrite !real20_add in H. destruct H as (A & B & C).
  assert (T : real20 tolT + 1/1000000 <= 1/100000).
  { unfold real20. replace (IZR unit20) with (200000 * IZR tolT) by (rewrite <- mult_IZR; apply f_equal; vm_compute; reflexivity).
    assert (0 < IZR tolT) by (apply IZR_lt; reflexivity). replace (IZR tolT / (200000 * IZR tolT)) with (1/200000) by (field; lra). lra. }
  assert (G : forall u v w z, near_integer (real20 tolT) (u + v - w) -> Rabs (z - u) <= 1/1000000 -> near_integer (1/100000) (v + z - w)).
  { intros u v w z N D. eapply near_integer_weaken; [apply T|]. eapply near_integer_shift; [apply N|].
    replace (v + z - w - (u + v - w)) with (z - u) by ring. exact D. }
  repeat split; eapply G; eauto.
Qed.
Definition half20 : Z := (5 * 10 ^ 19)%Z.
Definition third20 : Z := 33333333333333333333%Z.
Lemma half20_ok : Rabs (1/2 - real20 half20) <= 1/1000000.
Proof.
  unfold real20. replace (IZR unit20) with (2 * IZR half20) by (rewrite <- mult_IZR; apply f_equal; vm_compute; reflexivity).
  assert (0 < IZR half20) by (apply IZR_lt; reflexivity). replace (1/2 - IZR half20 / (2 * IZR half20)) with 0 by (field; lra). rewrite Rabs_R0. lra.
Qed.
Lemma zero20_ok : Rabs (0 - real20 0) <= 1/1000000.
Proof. unfold real20, Rdiv. rewrite Rmult_0_l, Rminus_0_r, Rabs_R0. lra. Qed.
Lemma third_ok k (n : Z) r : r = IZR k / 3 -> (0 <= k * unit20 - 3 * n <= 3 * 10 ^ 10)%Z -> Rabs (r - real20 n) <= 1/1000000.
Proof.
  intros -> (A & B). pose proof unit20_R. replace (IZR k / 3 - real20 n) with (IZR (k * unit20 - 3 * n) / (3 * IZR unit20)) by (unfold real20; rewrite minus_IZR, !mult_IZR; field; lra).
  apply IZR_le in A, B. rewrite mult_IZR in B. rewrite Rabs_right.
  - apply (Rmult_le_reg_r (3 * IZR unit20)); [lra|]. unfold Rdiv at 1. rewrite Rmult_assoc, Rinv_l, Rmult_1_r by lra.
    assert (IZR unit20 = IZR (10^10) * IZR (10^10)) by (rewrite <- mult_IZR; apply f_equal; vm_compute; reflexivity).
    assert (10000000 <= IZR (10^10)) by (apply IZR_le; vm_compute; discriminate). nra.
  - apply Rle_ge, Rmult_le_pos; [auto|left; apply Rinv_0_lt_compat; lra].
Qed.
Definition centringZ (a b c : zvec) (letter : ascii) (l : zatoms) : bool :=
  (match letter with
  | "I"%char => invariantZ tolT (zadd (Zv half20 half20 half20)) l
  | "F"%char => invariantZ tolT (zadd (Zv 0 half20 half20)) l && invariantZ tolT (zadd (Zv half20 0 half20)) l && invariantZ tolT (zadd (Zv half20 half20 0)) l
  | "C"%char => invariantZ tolT (zadd (Zv half20 half20 0)) l
  | "A"%char => invariantZ tolT (zadd (Zv 0 half20 half20)) l
  | "R"%char => rhombohedralZ a b c || (hexagonalZ a b c && invariantZ tolT (zadd (Zv (2 * third20) third20 third20)) l)
  | _ => true
  end)%bool.
Lemma centringZ_ok a b c letter l : centringZ a b c letter l = true ->
  centring_fits (1/100000) letter (M3 (vec20 a) (vec20 b) (vec20 c)) (real_atoms l).
Proof.
  pose proof half20_ok. pose proof zero20_ok.
  assert (T1 : Rabs (1/3 - real20 third20) <= 1/1000000) by (apply (third_ok 1); [reflexivity|vm_compute; split; discriminate]).
  assert (T2 : Rabs (2/3 - real20 (2 * third20)) <= 1/1000000) by (apply (third_ok 2); [reflexivity|vm_compute; split; discriminate]).
  unfold centringZ, centring_fits. destruct letter as [[] [] [] [] [] [] [] []]; auto; rewrite ?andb_true_iff, ?orb_true_iff, ?andb_true_iff.
  all: try (intros K; eapply translation_ok; [| | |exact K]; assumption).
  - intros ((K1 & K2) & K3). split; [|split]; [eapply translation_ok; [| | |exact K1]|eapply translation_ok; [| | |exact K2]|eapply translation_ok; [| | |exact K3]]; assumption.
  - intros [K|(K1 & K2)]; [left; apply rhombohedralZ_ok; auto|right; split; [apply hexagonalZ_ok; auto|]].
    eapply translation_ok; [| | |exact K2]; assumption.
Qed.

(* the crystal *)
Definition inside (z : Z) : bool := ((0 <=? z) && (z <? unit20))%Z%bool.
Definition zdet (a b c : zvec) : Z :=
  (zx a * (zy b * zz c - zz b * zy c) - zy a * (zx b * zz c - zz b * zx c) + zz a * (zx b * zy c - zy b * zx c))%Z.
Definition tol20 : Z := (5 * 10 ^ 18)%Z.
Fixpoint apartZ (l : zatoms) : bool :=
  match l with
  | [] => true
  | x :: l' => if all_of (fun y => negb (same_placeZ tol20 (snd x) (snd y))) l' then apartZ l' else false
  end.
Definition atomZ (x : string * zvec) : bool :=
  (mem (fst x) ATOM_SPECIES && match get_atom_species (fst x) true with Ok s => String.eqb s (fst x) | Err _ => false end &&
   inside (zx (snd x)) && inside (zy (snd x)) && inside (zz (snd x)))%bool.
Definition crystalZ (a b c : zvec) (l : zatoms) : bool :=
  (negb (zdet a b c =? 0)%Z && match l with [] => false | _ => true end && forallb atomZ l && apartZ l)%bool.
Lemma tol20_R : real20 tol20 = 1/20.
Proof.
  unfold real20. replace (IZR unit20) with (20 * IZR tol20) by (rewrite <- mult_IZR; apply f_equal; vm_compute; reflexivity).
  assert (0 < IZR tol20) by (apply IZR_lt; reflexivity). field. lra.
Qed.
Lemma inside_ok z : inside z = true -> 0 <= real20 z < 1.
Proof.
  unfold inside. rewrite andb_true_iff, Z.leb_le, Z.ltb_lt. intros (A & B).
  replace 0 with (real20 0) by (unfold real20, Rdiv; rewrite Rmult_0_l; reflexivity).
  replace 1 with (real20 unit20) by (unfold real20; pose proof unit20_R; field; lra). split; [apply real20_le|apply real20_lt]; auto.
Qed.
Lemma zdet_ok a b c : det (M3 (vec20 a) (vec20 b) (vec20 c)) = IZR (zdet a b c) / (IZR unit20 * IZR unit20 * IZR unit20).
Proof.
  pose proof unit20_R. unfold zdet, det, vec20, real20. vunfold. rewrite ?plus_IZR, ?minus_IZR, ?mult_IZR, ?plus_IZR, ?minus_IZR, ?mult_IZR. field. lra.
Qed.
Lemma near_integer_opp t x : near_integer t x -> near_integer t (- x).
Proof. intros (z & H). exists (- z)%Z. unfold near in *. rewrite opp_IZR. replace (- x - - IZR z) with (- (x - IZR z)) by ring. rewrite Rabs_Ropp. exact H. Qed.
Lemma same_place_sym t p q : same_place t p q -> same_place t q p.
Proof.
  intros (A & B & C). repeat split; [replace (vx q - vx p) with (- (vx p - vx q)) by ring|replace (vy q - vy p) with (- (vy p - vy q)) by ring|
    replace (vz q - vz p) with (- (vz p - vz q)) by ring]; apply near_integer_opp; auto.
Qed.
Lemma apartZ_ok l : apartZ l = true -> forall i j x y, nth_error l i = Some x -> nth_error l j = Some y -> i <> j ->
  ~ same_place (1/20) (vec20 (snd x)) (vec20 (snd y)).
Proof.
  rewrite <- tol20_R. induction l as [|z l IH]; intros H i j x y A B D; [destruct i; discriminate|].
  cbn [apartZ] in H. rewrite all_of_eq, if_and in H. apply andb_true_iff in H. destruct H as [H HL]. rewrite forallb_forall in H.
  assert (G : forall w, In w l -> ~ same_place (real20 tol20) (vec20 (snd z)) (vec20 (snd w))).
  { intros w W S. specialize (H w W). apply (same_placeZ_ok tol20) in S; [|vm_compute; discriminate]. rewrite S in H. discriminate. }
  destruct i as [|i], j as [|j]; cbn [nth_error] in A, B.
  - congruence.
  - injection A as <-. apply nth_error_In in B. auto.
  - injection B as <-. apply nth_error_In in A. intros S. apply same_place_sym in S. revert S. apply G. auto.
  - apply (IH HL i j); auto.
Qed.
Lemma crystalZ_ok a b c l : crystalZ a b c l = true -> crystal_ok (M3 (vec20 a) (vec20 b) (vec20 c)) (real_atoms l).
Proof.
  unfold crystalZ. rewrite !andb_true_iff. intros (((D & NE) & A) & P). unfold crystal_ok. repeat split.
  - rewrite zdet_ok. apply negb_true_iff, Z.eqb_neq in D. pose proof unit20_R. apply Rmult_integral_contrapositive_currified; [apply not_0_IZR; auto|].
    apply Rinv_neq_0_compat. apply Rmult_integral_contrapositive_currified; [apply Rmult_integral_contrapositive_currified|]; lra.
  - destruct l; [discriminate|discriminate].
  - apply in_real in H. destruct H as (q & -> & H). rewrite forallb_forall in A. specialize (A _ H). unfold atomZ in A. rewrite !andb_true_iff in A. apply mem_true. tauto.
  - apply in_real in H. destruct H as (q & -> & H). rewrite forallb_forall in A. specialize (A _ H). unfold atomZ in A. rewrite !andb_true_iff in A.
    destruct A as ((((_ & A) & _) & _) & _). cbn [fst] in A. destruct (get_atom_species s true); [|discriminate]. apply String.eqb_eq in A. subst. reflexivity.
  - apply in_real in H. destruct H as (q & -> & H). rewrite forallb_forall in A. specialize (A _ H). unfold atomZ in A. rewrite !andb_true_iff in A. cbn [snd] in A. apply (inside_ok (zx q)). tauto.
  - apply in_real in H. destruct H as (q & -> & H). rewrite forallb_forall in A. specialize (A _ H). unfold atomZ in A. rewrite !andb_true_iff in A. cbn [snd] in A. apply (inside_ok (zx q)). tauto.
  - apply in_real in H. destruct H as (q & -> & H). rewrite forallb_forall in A. specialize (A _ H). unfold atomZ in A. rewrite !andb_true_iff in A. cbn [snd] in A. apply (inside_ok (zy q)). tauto.
  - apply in_real in H. destruct H as (q & -> & H). rewrite forallb_forall in A. specialize (A _ H). unfold atomZ in A. rewrite !andb_true_iff in A. cbn [snd] in A. apply (inside_ok (zy q)). tauto.
  - apply in_real in H. destruct H as (q & -> & H). rewrite forallb_forall in A. specialize (A _ H). unfold atomZ in A. rewrite !andb_true_iff in A. cbn [snd] in A. apply (inside_ok (zz q)). tauto.
  - apply in_real in H. destruct H as (q & -> & H). rewrite forallb_forall in A. specialize (A _ H). unfold atomZ in A. rewrite !andb_true_iff in A. cbn [snd] in A. apply (inside_ok (zz q)). tauto.
  - intros i j x y I J N. unfold real_atoms in I, J. rewrite nth_error_map in I, J.
    destruct (nth_error l i) as [x0|] eqn:E1; [|discriminate]. destruct (nth_error l j) as [y0|] eqn:E2; [|discriminate].
    injection I as <-. injection J as <-. cbn [snd]. apply (apartZ_ok l P i j); auto.
Qed.

Definition tol5 : Z := (10 ^ 15)%Z.
Definition tol2cm : Z := (10 ^ 18)%Z.
Lemma tol5_R : real20 tol5 = 1/100000.
Proof.
  unfold real20. replace (IZR unit20) with (100000 * IZR tol5) by (rewrite <- mult_IZR; apply f_equal; vm_compute; reflexivity).
  assert (0 < IZR tol5) by (apply IZR_lt; reflexivity). field. lra.
Qed.
Lemma tol2cm_R : real20 tol2cm = 1/100.
Proof.
  unfold real20. replace (IZR unit20) with (100 * IZR tol2cm) by (rewrite <- mult_IZR; apply f_equal; vm_compute; reflexivity).
  assert (0 < IZR tol2cm) by (apply IZR_lt; reflexivity). field. lra.
Qed.
Definition checkZ (symbol : string) (inversion : bool) (lines : list string) : bool :=
  match load_fixed lines with
  | Some (a, b, c, l) =>
      (crystalZ a b c l &&
       match symbol with String f (String g _) => familyZ a b c f && centringZ a b c g l | _ => false end &&
       variantZ a b c symbol &&
       (if inversion then inversionZ tol5 l else negb (inversionZ (2 * tol2cm) l)))%bool
  | None => false
  end.
Lemma checkZ_ok symbol inversion lines : checkZ symbol inversion lines = true ->
  exists cell atoms comment, load_poscar lines = Ok (cell, atoms, comment) /\ of_kind symbol inversion cell atoms.
Proof.
  unfold checkZ. destruct (load_fixed lines) as [[[[a b] c] l]|] eqn:E; [|discriminate]. rewrite !andb_true_iff. intros (((K & F) & V) & H).
  destruct (load_fixed_ok _ _ _ _ _ E) as (comment & L). exists (M3 (vec20 a) (vec20 b) (vec20 c)), (real_atoms l), comment. split; [exact L|].
  pose proof (crystalZ_ok _ _ _ _ K) as KO. unfold of_kind. split; [exact KO|]. split; [|split].
  - intros f g (rest & ->). apply andb_true_iff in F. destruct F as [F1 F2]. split; [apply familyZ_ok; auto|apply centringZ_ok; auto].
  - apply variantZ_ok; auto.
  - destruct inversion.
    + rewrite <- tol5_R. apply inversion_yes; [vm_compute; discriminate|auto].
    + rewrite <- tol2cm_R. apply inversion_no; [vm_compute; discriminate|intros ->; destruct KO as (_ & NE & _); apply NE; reflexivity|]. apply negb_true_iff; auto.
Qed.

Definition full_name (s : string) : string :=
  if Nat.eqb (String.length s) 2 then (if String.eqb s "aP" then "aP2" else String.append s "1") else s.
Definition exampleZ (s : string) (i : bool) : bool :=
  (negb (mem s not_available && i) && mem s supported_symbols &&
   match example_lines (full_name s) i with Ok lines => checkZ (full_name s) i lines | Err _ => false end)%bool.
Lemma exampleZ_ok s i : exampleZ s i = true ->
  exists cell atoms, hpkot_get_example s i = Ok (cell, atoms) /\ of_kind (full_name s) i cell atoms.
Proof.
  unfold exampleZ, hpkot_get_example. fold (full_name s). change ["oF2"; "oI2"; "oA1"; "oA2"] with not_available. rewrite !andb_true_iff. intros ((A & B) & C).
  apply negb_true_iff in A. rewrite A, B. cbn [negb].
  destruct (example_lines (full_name s) i) as [lines|]; [|discriminate]. cbn [bind].
  destruct (checkZ_ok _ _ _ C) as (cell & atoms & comment & L & K). rewrite L. cbn [bind]. exists cell, atoms. auto.
Qed.
Definition plain_names (i : bool) : list string :=
  filter (fun s => negb (i && (mem s not_available || String.eqb s "oA")))%bool (long_names ++ short_names).
Lemma all_examples : forallb (fun i => forallb (fun s => exampleZ s i) (plain_names i)) [true; false] = true.
Proof. vm_cast_no_check (eq_refl true). Qed.
Lemma full_names : forallb (fun s => (String.eqb (full_name s) s)) long_names = true /\
  forallb (fun s => (String.eqb s "aP" || String.eqb (full_name s) (String.append s "1"))%bool) short_names = true.
Proof. split; vm_compute; reflexivity. Qed.
Lemma stands_full s full : stands_for s full -> full = full_name s /\ In s (long_names ++ short_names).
Proof.
  destruct full_names as [L S0]. rewrite forallb_forall in L, S0. intros [(H & ->)|[(H & N & ->)|(-> & ->)]].
  - split; [|apply in_app_iff; auto]. apply L, String.eqb_eq in H. auto.
  - split; [|apply in_app_iff; auto]. apply S0, orb_true_iff in H. destruct H as [H|H]; apply String.eqb_eq in H; congruence.
  - split; [reflexivity|]. apply in_app_iff. right. vm_compute. tauto.
Qed.
Theorem C61_examples : forall symbol full inversion,
  stands_for symbol full -> ~ (inversion = true /\ (In symbol not_available \/ symbol = "oA")) ->
  exists cell atoms, hpkot_get_example symbol inversion = Ok (cell, atoms) /\ of_kind full inversion cell atoms.
Proof.
  intros s full i H N. apply stands_full in H. destruct H as [-> H]. apply exampleZ_ok.
  pose proof all_examples as A. rewrite forallb_forall in A. assert (I : In i [true; false]) by (destruct i; cbn; auto).
  specialize (A i I). rewrite forallb_forall in A. apply A. unfold plain_names. apply filter_In. split; [auto|].
  apply negb_true_iff. destruct i; [|reflexivity]. cbn [andb]. apply orb_false_iff. split.
  - destruct (mem s not_available) eqn:M; [|auto]. apply mem_true in M. exfalso. apply N. auto.
  - apply String.eqb_neq. intros ->. apply N. auto.
Qed.
Print Assumptions C61_examples.
Lemma same_example s s' i : Bool.eqb (mem s not_available && i) (mem s' not_available && i) = true ->
  mem s supported_symbols = true -> mem s' supported_symbols = true -> String.eqb (full_name s) (full_name s') = true ->
  hpkot_get_example s i = hpkot_get_example s' i.
Proof.
  intros A B C D. unfold hpkot_get_example. fold (full_name s) (full_name s'). change ["oF2"; "oI2"; "oA1"; "oA2"] with not_available.
  apply Bool.eqb_prop in A. apply String.eqb_eq in D. rewrite A, B, C, D. reflexivity.
Qed.
Lemma short_same : forallb (fun s => forallb (fun i => ((i && String.eqb s "oA") ||
  (Bool.eqb (mem s not_available && i) (mem (full_name s) not_available && i) && mem s supported_symbols && mem (full_name s) supported_symbols &&
   String.eqb (full_name s) (full_name (full_name s))))%bool) [true; false]) short_names = true.
Proof. vm_compute. reflexivity. Qed.
Theorem C61_short_names : forall symbol full inversion, stands_for symbol full -> ~ (inversion = true /\ symbol = "oA") ->
  hpkot_get_example symbol inversion = hpkot_get_example full inversion.
Proof.
  intros s full i H N. apply stands_full in H. destruct H as [-> H]. apply in_app_iff in H. destruct H as [H|H].
  - destruct full_names as [L _]. rewrite forallb_forall in L. apply L, String.eqb_eq in H. rewrite H. reflexivity.
  - pose proof short_same as A. rewrite forallb_forall in A. specialize (A s H). rewrite forallb_forall in A.
    assert (I : In i [true; false]) by (destruct i; cbn; auto). specialize (A i I). apply orb_true_iff in A. destruct A as [A|A].
    + exfalso. apply N. apply andb_true_iff in A. destruct A as [A B]. apply String.eqb_eq in B. auto.
    + rewrite !andb_true_iff in A. apply same_example; tauto.
Qed.
Print Assumptions C61_short_names.
Lemma supported_names s : mem s supported_symbols = true <-> In s long_names \/ In s short_names.
Proof.
  rewrite mem_true. split.
  - intros H. assert (A : forallb (fun x => (mem x long_names || mem x short_names)%bool) supported_symbols = true) by (vm_compute; reflexivity).
    rewrite forallb_forall in A. apply A, orb_true_iff in H. rewrite !mem_true in H. exact H.
  - intros H. apply in_app_iff in H. assert (A : forallb (fun x => mem x supported_symbols) (long_names ++ short_names) = true) by (vm_compute; reflexivity).
    rewrite forallb_forall in A. apply A, mem_true in H. exact H.
Qed.
Theorem C61_refused : forall symbol inversion,
  inversion = true /\ In symbol not_available \/ ~ (In symbol long_names \/ In symbol short_names) ->
  hpkot_get_example symbol inversion = Err ValueError.
Proof.
  intros s i H. unfold hpkot_get_example. change ["oF2"; "oI2"; "oA1"; "oA2"] with not_available.
  destruct H as [(-> & H)|H].
  - apply mem_true in H. rewrite H. reflexivity.
  - destruct (mem s not_available && i)%bool; [reflexivity|]. destruct (mem s supported_symbols) eqn:E; [|reflexivity].
    apply supported_names in E. contradiction.
Qed.
Print Assumptions C61_refused.
(* the documentation promises an example or ValueError; "oA" with inversion gives neither *)
Theorem C61_only_ValueError_refuted : exists symbol inversion,
  In symbol short_names /\ ~ In symbol not_available /\ hpkot_get_example symbol inversion = Err FileNotFoundError.
Proof.
  exists "oA", true. split; [vm_compute; tauto|]. split; [|vm_compute; reflexivity].
  intros H. apply mem_true in H. vm_compute in H. discriminate.
Qed.
Print Assumptions C61_only_ValueError_refuted.
(* the other results: there are no other exceptions *)
Theorem C61_total : forall symbol inversion,
  (exists cell atoms, hpkot_get_example symbol inversion = Ok (cell, atoms)) \/
  hpkot_get_example symbol inversion = Err ValueError \/
  symbol = "oA" /\ inversion = true /\ hpkot_get_example symbol inversion = Err FileNotFoundError.
Proof.
  intros s i. destruct (mem s supported_symbols) eqn:E.
  - apply supported_names in E.
    assert (SF : exists full, stands_for s full).
    { destruct E as [E|E]; [exists s; left; auto|]. destruct (String.eqb_spec s "aP") as [->|N]; [exists "aP2"; right; right; auto|].
      exists (String.append s "1"). right; left; auto. }
    destruct SF as (full & SF).
    destruct (string_dec s "oA") as [->|N]; [destruct i|].
    + right; right. split; [reflexivity|split; reflexivity].
    + left. destruct (C61_examples "oA" full false SF) as (c & a & H & _); [intros [X _]; discriminate|eauto].
    + destruct (mem s not_available) eqn:M; [destruct i|].
      * right; left. apply C61_refused. left. split; [auto|apply mem_true; auto].
      * left. destruct (C61_examples s full false SF) as (c & a & H & _); [intros [X _]; discriminate|eauto].
      * left. destruct (C61_examples s full i SF) as (c & a & H & _); [|eauto].
        intros (_ & [X|X]); [|contradiction]. apply mem_true in X. congruence.
  - right; left. apply C61_refused. right. intros H. apply supported_names in H. congruence.
Qed.
Print Assumptions C61_total.
Example C61_nonvacuous : stands_for "hR" "hR1" /\ stands_for "mC3" "mC3" /\ stands_for "aP" "aP2" /\ ~ (In "oB1" long_names \/ In "oB1" short_names).
Proof.
  split; [right; left; repeat split; [vm_compute; tauto|discriminate]|]. split; [left; split; [vm_compute; tauto|reflexivity]|].
  split; [right; right; auto|]. intros H. apply supported_names in H. vm_compute in H. discriminate.
Qed.
