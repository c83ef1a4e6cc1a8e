(* P_FloatPath.v : property C82, the k-path in double precision *)
From Verif Require Import Base M_Voronoi M_Kpoints F_Kpoints P_Kpoints F_Voronoi M_Positions P_Positions M_Float M_FloatAtoms M_FloatPath P_FloatPositions P_FloatAtoms.
From Flocq Require Import Core.
From Coq Require Import Lra Lia.
Open Scope R_scope.

#[local] Instance prec53' : Prec_gt_0 53 := eq_refl.
#[local] Instance valid64' : Valid_exp (FLT_exp (-1074) 53) := FLT_exp_valid (-1074) 53.
(* ---------- one component of numpy.linspace ---------- *)
Definition eta := bpow radix2 (-1075).
Lemma eta_pos : 0 < eta. Proof. apply bpow_gt_0. Qed.
Lemma eta_small : eta * 2 ^ 175 = bpow radix2 (-900).
Proof. unfold eta. replace (2 ^ 175) with (bpow radix2 175) by (cbn; lra). rewrite <- bpow_plus. reflexivity. Qed.
Lemma rnd_up x : 0 <= x -> rnd64 x <= x * (1 + / 2 ^ 53) + eta.
Proof. intros H. pose proof (rnd64_error x) as E. rewrite (Rabs_right x) in E by lra. fold eta in E. apply Rabs_le_inv in E. unfold Rdiv in E. lra. Qed.
Lemma rnd_pos x : 0 <= x -> 0 <= rnd64 x.
Proof. intros. apply rnd64_ge; [apply fmt0|auto]. Qed.
Lemma div_pos n : (0 <= n)%Z -> 0 < IZR (n + 1).
Proof. intros. apply IZR_lt. lia. Qed.
Lemma middle_0 z a b n : fmt a -> fmiddle z a b n 0 = a.
Proof.
  intros F. unfold fmiddle. cbn [INR]. replace (0 / IZR (n + 1)) with 0 by (unfold Rdiv; ring).
  destruct z; rewrite ?Rmult_0_l, ?rnd64_0, ?Rmult_0_l, ?rnd64_0, Rplus_0_l; apply rnd64_id, F.
Qed.
Lemma middle_mono z a b n j k : (0 <= n)%Z -> a <= b -> (j <= k)%nat -> fmiddle z a b n j <= fmiddle z a b n k.
Proof.
  intros N L J. apply le_INR in J. pose proof (div_pos n N) as D. assert (P : 0 <= rnd64 (b - a)) by (apply rnd_pos; lra).
  assert (I : 0 < / IZR (n + 1)) by (apply Rinv_0_lt_compat; auto).
  unfold fmiddle. apply rnd64_mono, Rplus_le_compat_r. destruct z; apply rnd64_mono.
  - apply Rmult_le_compat_r; [auto|]. apply rnd64_mono. unfold Rdiv. apply Rmult_le_compat_r; lra.
  - apply Rmult_le_compat_r; [|auto]. unfold fstep. apply rnd_pos. unfold Rdiv. apply Rmult_le_pos; lra.
Qed.
Lemma middle_opp z a b n j : fmiddle z (- a) (- b) n j = - fmiddle z a b n j.
Proof.
  unfold fmiddle, fstep. replace (- b - - a) with (- (b - a)) by ring. rewrite !rnd64_opp.
  replace (- rnd64 (b - a) / IZR (n + 1)) with (- (rnd64 (b - a) / IZR (n + 1))) by (unfold Rdiv; ring). rewrite !rnd64_opp.
  assert (M : forall y, rnd64 (- y + - a) = - rnd64 (y + a)) by (intros y; rewrite <- rnd64_opp; f_equal; ring).
  destruct z; rewrite Ropp_mult_distr_r_reverse, rnd64_opp; apply M.
Qed.
Lemma ratio n (j : nat) : (0 <= n)%Z -> (n + 1 <= 2 ^ 50)%Z -> (Z.of_nat j <= n)%Z -> 0 <= INR j / IZR (n + 1) <= 1 - / 2 ^ 50.
Proof.
  intros N B J. pose proof (div_pos n N) as D. split; [unfold Rdiv; apply Rmult_le_pos; [apply pos_INR|left; apply Rinv_0_lt_compat; auto]|].
  apply (Rmult_le_reg_r (IZR (n + 1))); [auto|]. unfold Rdiv. rewrite Rmult_assoc, Rinv_l, Rmult_1_r by lra.
  rewrite INR_IZR_INZ. apply IZR_le in J, B. rewrite plus_IZR in *. change (IZR (2 ^ 50)) with 1125899906842624 in B. replace (/ 2 ^ 50) with (/ 1125899906842624) by (cbn; lra). nra.
Qed.
(* the points before the last one do not go beyond it *)
Lemma middle_up z a b n j : fmt b -> (0 <= n)%Z -> (n + 1 <= 2 ^ 50)%Z -> (Z.of_nat j <= n)%Z -> bpow radix2 (-900) <= b - a -> fmiddle z a b n j <= b.
Proof.
  intros FB N B J L. unfold fmiddle. apply rnd64_le; [auto|]. set (l := b - a) in *. set (delta := rnd64 l).
  pose proof eta_pos as E0. pose proof eta_small as E1. rewrite <- E1 in L.
  destruct (ratio n j N B J) as (Q0 & Q1). pose proof (div_pos n N) as D.
  assert (DL : delta <= l * (1 + 2 / 2 ^ 53)) by (pose proof (rnd_up l ltac:(lra)); unfold delta; lra).
  assert (D0 : 0 <= delta) by (apply rnd_pos; lra).
  enough (Y : (if z then rnd64 (rnd64 (INR j / IZR (n + 1)) * delta) else rnd64 (INR j * fstep a b n)) <= l) by (unfold l in *; lra).
  destruct z.
  - set (q := INR j / IZR (n + 1)) in *.
    assert (Q : rnd64 q <= 1 - / 2 ^ 51).
    { pose proof (rnd_up q Q0) as R1. assert (P : q * (1 + / 2 ^ 53) <= (1 - / 2 ^ 50) * (1 + / 2 ^ 53)) by (apply Rmult_le_compat_r; lra).
      assert (eta <= / 2 ^ 175).
      { unfold eta. apply Rle_trans with (bpow radix2 (-175)); [apply bpow_le; lia|]. right. cbn. lra. }
      lra. }
    pose proof (rnd_pos q Q0) as QP.
    assert (P : rnd64 q * delta <= (1 - / 2 ^ 51) * (l * (1 + 2 / 2 ^ 53))) by (apply Rmult_le_compat; lra).
    pose proof (rnd_up (rnd64 q * delta) ltac:(apply Rmult_le_pos; lra)) as R1.
    assert (P2 : rnd64 q * delta * (1 + / 2 ^ 53) <= (1 - / 2 ^ 51) * (l * (1 + 2 / 2 ^ 53)) * (1 + / 2 ^ 53)) by (apply Rmult_le_compat_r; lra).
    clear - R1 P2 L E0. lra.
  - unfold fstep. fold l delta. set (s := rnd64 (delta / IZR (n + 1))).
    assert (DD : 0 <= delta / IZR (n + 1)) by (unfold Rdiv; apply Rmult_le_pos; [auto|left; apply Rinv_0_lt_compat; auto]).
    pose proof (rnd_up (delta / IZR (n + 1)) DD) as S1. fold s in S1. pose proof (rnd_pos _ DD) as S0. fold s in S0.
    assert (P : INR j * s <= INR j / IZR (n + 1) * delta * (1 + / 2 ^ 53) + INR j * eta).
    { apply Rle_trans with (INR j * (delta / IZR (n + 1) * (1 + / 2 ^ 53) + eta)); [apply Rmult_le_compat_l; [apply pos_INR|auto]|]. right. unfold Rdiv. ring. }
    assert (P1 : INR j / IZR (n + 1) * delta <= (1 - / 2 ^ 50) * (l * (1 + 2 / 2 ^ 53))) by (apply Rmult_le_compat; lra).
    assert (P2 : INR j * eta <= 2 ^ 50 * eta).
    { apply Rmult_le_compat_r; [lra|]. rewrite INR_IZR_INZ. replace (2 ^ 50) with (IZR (2 ^ 50)) by (cbn; lra). apply IZR_le. lia. }
    pose proof (rnd_up (INR j * s) ltac:(apply Rmult_le_pos; [apply pos_INR|auto])) as R1.
    clear - R1 P P1 P2 L E0. lra.
Qed.
(* short segments *)
Lemma middle_short z a b n j : fmt a -> (0 <= n)%Z -> (n + 1 <= 2 ^ 50)%Z -> (Z.of_nat j <= n)%Z -> Rabs (b - a) <= bpow radix2 (-900) -> Rabs (fmiddle z a b n j - a) <= bpow radix2 (-800).
Proof.
  intros FA N B J L. unfold fmiddle. set (l := b - a) in *. set (delta := rnd64 l).
  pose proof eta_pos as E0. pose proof eta_small as E1. rewrite <- E1 in L. destruct (ratio n j N B J) as (Q0 & Q1). pose proof (div_pos n N) as D.
  assert (RA : forall x, Rabs (rnd64 x) <= Rabs x * (1 + / 2 ^ 53) + eta).
  { intros x. pose proof (rnd64_error x) as E. fold eta in E. pose proof (Rabs_triang (rnd64 x - x) x) as T. replace (rnd64 x - x + x) with (rnd64 x) in T by ring. unfold Rdiv in E. lra. }
  assert (DL : Rabs delta <= eta * 2 ^ 176) by (pose proof (RA l); unfold delta; lra).
  enough (Y : Rabs (if z then rnd64 (rnd64 (INR j / IZR (n + 1)) * delta) else rnd64 (INR j * fstep a b n)) <= eta * 2 ^ 230).
  { set (y := if z then _ else _) in *. clearbody y.
    assert (NN : Rabs (rnd64 (y + a) - (y + a)) <= Rabs (a - (y + a))).
    { pose proof (round_N_pt radix2 (FLT_exp (-1074) 53) (fun x => negb (Z.even x)) (y + a)) as (_ & H). apply H. exact FA. }
    replace (a - (y + a)) with (- y) in NN by ring. rewrite Rabs_Ropp in NN. pose proof (Rabs_triang (rnd64 (y + a) - (y + a)) y) as T.
    replace (rnd64 (y + a) - (y + a) + y) with (rnd64 (y + a) - a) in T by ring.
    assert (E8 : eta * 2 ^ 275 = bpow radix2 (-800)) by (unfold eta; replace (2 ^ 275) with (bpow radix2 275) by (cbn; lra); rewrite <- bpow_plus; reflexivity).
    rewrite <- E8. lra. }
  destruct z.
  - set (q := INR j / IZR (n + 1)) in *. pose proof (rnd_pos q Q0) as QP.
    assert (Q : rnd64 q <= 1) by (apply rnd64_le; [apply fmt1|lra]).
    assert (P : Rabs (rnd64 q * delta) <= eta * 2 ^ 176).
    { rewrite Rabs_mult, (Rabs_right (rnd64 q)) by lra. pose proof (Rabs_pos delta). nra. }
    pose proof (RA (rnd64 q * delta)). lra.
  - unfold fstep. fold l delta. set (s := rnd64 (delta / IZR (n + 1))).
    assert (I1 : / IZR (n + 1) <= 1) by (rewrite <- Rinv_1; apply Rinv_le_contravar; [lra|]; apply IZR_le; lia).
    assert (I0 : 0 < / IZR (n + 1)) by (apply Rinv_0_lt_compat; auto).
    assert (S1 : Rabs s <= eta * 2 ^ 177).
    { pose proof (RA (delta / IZR (n + 1))) as R1. fold s in R1. unfold Rdiv in R1. rewrite Rabs_mult, (Rabs_right (/ IZR (n + 1))) in R1 by lra.
      assert (Rabs delta * / IZR (n + 1) <= eta * 2 ^ 176) by (pose proof (Rabs_pos delta); nra). lra. }
    assert (P : Rabs (INR j * s) <= 2 ^ 50 * (eta * 2 ^ 177)).
    { rewrite Rabs_mult, (Rabs_right (INR j)) by (apply Rle_ge, pos_INR). apply Rmult_le_compat; [apply pos_INR|apply Rabs_pos| |auto].
      rewrite INR_IZR_INZ. replace (2 ^ 50) with (IZR (2 ^ 50)) by (cbn; lra). apply IZR_le. lia. }
    pose proof (RA (INR j * s)). lra.
Qed.
(* accuracy *)
Lemma middle_near z a b n j : (0 <= n)%Z -> (n + 1 <= 2 ^ 50)%Z -> (Z.of_nat j <= n)%Z ->
  Rabs (fmiddle z a b n j - (a + INR j / IZR (n + 1) * (b - a))) <= (Rabs a + Rabs b) / 2 ^ 49 + bpow radix2 (-1000).
Proof.
  intros N B J. unfold fmiddle. set (l := b - a) in *. set (delta := rnd64 l).
  pose proof eta_pos as E0. destruct (ratio n j N B J) as (Q0 & Q1). pose proof (div_pos n N) as D.
  assert (ER : forall x, Rabs (rnd64 x - x) <= Rabs x * / 2 ^ 53 + eta) by (intros x; apply rnd64_error).
  assert (RA : forall x, Rabs (rnd64 x) <= Rabs x * (1 + / 2 ^ 53) + eta).
  { intros x. pose proof (ER x) as E. pose proof (Rabs_triang (rnd64 x - x) x) as T. replace (rnd64 x - x + x) with (rnd64 x) in T by ring. lra. }
  set (q := INR j / IZR (n + 1)) in *. set (A := Rabs a) in *. set (C := Rabs b) in *. assert (A0 : 0 <= A) by apply Rabs_pos. assert (C0 : 0 <= C) by apply Rabs_pos.
  assert (LL : Rabs l <= A + C) by (unfold l, A, C; pose proof (Rabs_triang b (- a)) as T; rewrite Rabs_Ropp in T; unfold Rminus; lra).
  set (M := A + C) in *.
  assert (DE : Rabs (delta - l) <= M * / 2 ^ 53 + eta) by (pose proof (ER l); unfold delta; lra).
  assert (DL : Rabs delta <= M * (1 + / 2 ^ 53) + eta) by (pose proof (RA l); unfold delta; lra).
  assert (JB : INR j <= 2 ^ 50) by (rewrite INR_IZR_INZ; replace (2 ^ 50) with (IZR (2 ^ 50)) by (cbn; lra); apply IZR_le; lia).
  assert (E10 : eta * 2 ^ 75 = bpow radix2 (-1000)) by (unfold eta; replace (2 ^ 75) with (bpow radix2 75) by (cbn; lra); rewrite <- bpow_plus; reflexivity).
  rewrite <- E10.
  enough (Y : Rabs ((if z then rnd64 (rnd64 q * delta) else rnd64 (INR j * fstep a b n)) - q * l) <= M * 4 / 2 ^ 53 + eta * 2 ^ 52).
  { set (y := if z then _ else _) in *. clearbody y. pose proof (ER (y + a)) as E2.
    assert (YB : Rabs (y + a) <= M * 3 + eta * 2 ^ 52).
    { replace (y + a) with ((y - q * l) + q * l + a) by ring. pose proof (Rabs_triang ((y - q * l) + q * l) a) as T1. pose proof (Rabs_triang (y - q * l) (q * l)) as T2.
      rewrite (Rabs_mult q l), (Rabs_right q) in T2 by lra. assert (q * Rabs l <= M) by (pose proof (Rabs_pos l); nra). fold A in T1. unfold M in *. lra. }
    replace (rnd64 (y + a) - (a + q * l)) with ((rnd64 (y + a) - (y + a)) + (y - q * l)) by ring.
    eapply Rle_trans; [apply Rabs_triang|]. assert (M0 : 0 <= M) by (unfold M; lra). clearbody M. clear - E2 YB Y M0 E0. lra. }
  assert (ES : eta <= / 2 ^ 175) by (unfold eta; apply Rle_trans with (bpow radix2 (-175)); [apply bpow_le; lia|]; right; cbn; lra).
  assert (M0 : 0 <= M) by (unfold M; lra). clearbody M. pose proof (Rabs_pos delta) as D0. destruct z.
  - pose proof (rnd_pos q Q0) as QP. assert (Q : rnd64 q <= 1) by (apply rnd64_le; [apply fmt1|lra]).
    pose proof (ER q) as RQ. rewrite (Rabs_right q) in RQ by lra. pose proof (ER (rnd64 q * delta)) as R1. rewrite Rabs_mult, (Rabs_right (rnd64 q)) in R1 by lra.
    assert (P1 : rnd64 q * Rabs delta <= Rabs delta) by nra.
    assert (P2 : Rabs ((rnd64 q - q) * delta) <= (/ 2 ^ 53 + / 2 ^ 175) * Rabs delta) by (rewrite Rabs_mult; apply Rmult_le_compat_r; lra).
    assert (P3 : Rabs (q * (delta - l)) <= Rabs (delta - l)) by (rewrite Rabs_mult, (Rabs_right q) by lra; pose proof (Rabs_pos (delta - l)); nra).
    replace (rnd64 (rnd64 q * delta) - q * l) with ((rnd64 (rnd64 q * delta) - rnd64 q * delta) + ((rnd64 q - q) * delta + q * (delta - l))) by ring.
    eapply Rle_trans; [apply Rabs_triang|]. eapply Rle_trans; [apply Rplus_le_compat_l, Rabs_triang|].
    clear - R1 P1 P2 P3 DE DL M0 E0 D0. lra.
  - unfold fstep. fold l delta. set (s := rnd64 (delta / IZR (n + 1))). pose proof (ER (delta / IZR (n + 1))) as S1. fold s in S1.
    pose proof (ER (INR j * s)) as R1. pose proof (pos_INR j) as JP.
    assert (I0 : 0 < / IZR (n + 1)) by (apply Rinv_0_lt_compat; auto).
    assert (P1 : Rabs (INR j * (s - delta / IZR (n + 1))) <= Rabs delta * / 2 ^ 53 + 2 ^ 50 * eta).
    { rewrite Rabs_mult, (Rabs_right (INR j)) by lra. unfold Rdiv in S1 at 2. rewrite Rabs_mult, (Rabs_right (/ IZR (n + 1))) in S1 by lra.
      apply Rle_trans with (INR j * (Rabs delta * / IZR (n + 1) * / 2 ^ 53 + eta)); [apply Rmult_le_compat_l; auto|].
      replace (INR j * (Rabs delta * / IZR (n + 1) * / 2 ^ 53 + eta)) with (q * (Rabs delta * / 2 ^ 53) + INR j * eta) by (unfold q, Rdiv; ring).
      apply Rplus_le_compat; [|apply Rmult_le_compat_r; lra]. assert (0 <= Rabs delta * / 2 ^ 53) by (apply Rmult_le_pos; [auto|left; apply Rinv_0_lt_compat, pow_lt; lra]). nra. }
    assert (P2 : Rabs (INR j * s) <= Rabs delta + (Rabs delta * / 2 ^ 53 + 2 ^ 50 * eta)).
    { replace (INR j * s) with (q * delta + INR j * (s - delta / IZR (n + 1))) by (unfold q, Rdiv; ring). eapply Rle_trans; [apply Rabs_triang|]. apply Rplus_le_compat; [|exact P1].
      rewrite Rabs_mult, (Rabs_right q) by lra. nra. }
    assert (P3 : Rabs (q * (delta - l)) <= Rabs (delta - l)) by (rewrite Rabs_mult, (Rabs_right q) by lra; pose proof (Rabs_pos (delta - l)); nra).
    replace (rnd64 (INR j * s) - q * l) with ((rnd64 (INR j * s) - INR j * s) + (INR j * (s - delta / IZR (n + 1)) + q * (delta - l))) by (unfold q, Rdiv; ring).
    eapply Rle_trans; [apply Rabs_triang|]. eapply Rle_trans; [apply Rplus_le_compat_l, Rabs_triang|].
    clear - R1 P1 P2 P3 DE DL M0 E0 D0. lra.
Qed.

(* ---------- one segment ---------- *)
Definition hcomp (z : bool) (a b : R) (n : Z) (j : nat) : R := if Nat.eqb j (Z.to_nat (n + 1)) then b else fmiddle z a b n j.
Lemma hcomp_opp z a b n j : hcomp z (- a) (- b) n j = - hcomp z a b n j.
Proof. unfold hcomp. destruct (Nat.eqb _ _); [reflexivity|apply middle_opp]. Qed.
Lemma tiny x : Rabs x < bpow radix2 (-1075) -> rnd64 x = 0.
Proof.
  intros H. assert (NN : Rabs (rnd64 x - x) <= Rabs (0 - x)).
  { pose proof (round_N_pt radix2 (FLT_exp (-1074) 53) (fun x => negb (Z.even x)) x) as (_ & G). apply G. apply fmt0. }
  rewrite Rminus_0_l, Rabs_Ropp in NN. pose proof (rnd64_fmt x) as F. apply double_fmt in F. destruct F as (m & e & E & _ & K).
  assert (B : Rabs (rnd64 x) < bpow radix2 (-1074)).
  { pose proof (Rabs_triang (rnd64 x - x) x) as T. replace (rnd64 x - x + x) with (rnd64 x) in T by ring. replace (bpow radix2 (-1074)) with (2 * bpow radix2 (-1075)); [lra|]. change 2 with (bpow radix2 1). rewrite <- bpow_plus. reflexivity. }
  rewrite E in *. destruct (Z.eq_dec m 0) as [->|M]; [lra|]. exfalso.
  rewrite Rabs_mult, <- abs_IZR, (Rabs_right (bpow _ _)) in B by (apply Rle_ge, bpow_ge_0).
  assert (1 <= IZR (Z.abs m)) by (apply IZR_le; lia). pose proof (bpow_le radix2 (-1074) e K). pose proof (bpow_gt_0 radix2 e). nra.
Qed.
Definition square_at (z : bool) (a b : R) (n : Z) (j : nat) : R := let c := rnd64 (hcomp z a b n j - a) in rnd64 (c * c).
Lemma square_opp z a b n j : square_at z (- a) (- b) n j = square_at z a b n j.
Proof. unfold square_at. rewrite hcomp_opp. replace (- hcomp z a b n j - - a) with (- (hcomp z a b n j - a)) by ring. rewrite rnd64_opp. f_equal. ring. Qed.
Lemma square_mono z a b n j k : fmt a -> fmt b -> (0 <= n)%Z -> (n + 1 <= 2 ^ 50)%Z -> (j <= k)%nat -> (k <= Z.to_nat (n + 1))%nat ->
  square_at z a b n j <= square_at z a b n k.
Proof.
  intros FA FB N B J K. destruct (Rle_lt_dec (Rabs (b - a)) (bpow radix2 (-900))) as [S|S].
  - enough (G : forall i, (i <= Z.to_nat (n + 1))%nat -> square_at z a b n i = 0) by (rewrite !G by lia; lra).
    intros i I. unfold square_at. apply tiny.
    assert (H : Rabs (hcomp z a b n i - a) <= bpow radix2 (-800)).
    { unfold hcomp. destruct (Nat.eqb_spec i (Z.to_nat (n + 1))); [apply Rle_trans with (bpow radix2 (-900)); [exact S|apply bpow_le; lia]|apply middle_short; auto; lia]. }
    set (x := hcomp z a b n i - a) in *. assert (F8 : fmt (bpow radix2 (-800))) by (apply double_fmt; exists 1%Z, (-800)%Z; split; [ring|split; lia]).
    assert (C : Rabs (rnd64 x) <= bpow radix2 (-800)).
    { apply Rabs_le_inv in H. apply Rabs_le. split; [|apply rnd64_le; [auto|lra]]. apply Ropp_le_cancel. rewrite Ropp_involutive, <- rnd64_opp. apply rnd64_le; [auto|lra]. }
    rewrite Rabs_mult. apply Rle_lt_trans with (bpow radix2 (-800) * bpow radix2 (-800)); [apply Rmult_le_compat; auto using Rabs_pos|].
    rewrite <- bpow_plus. apply bpow_lt. lia.
  - assert (UP : forall a b, fmt a -> fmt b -> bpow radix2 (-900) <= b - a -> square_at z a b n j <= square_at z a b n k).
    { clear a b FA FB S. intros a b FA FB S. pose proof (bpow_gt_0 radix2 (-900)) as P9.
      assert (M : hcomp z a b n j <= hcomp z a b n k).
      { unfold hcomp. destruct (Nat.eqb_spec j (Z.to_nat (n + 1))) as [E1|E1]; destruct (Nat.eqb_spec k (Z.to_nat (n + 1))) as [E2|E2]; try lia; [lra|apply middle_up; auto; lia|apply middle_mono; auto; lra]. }
      assert (L : a <= hcomp z a b n j).
      { unfold hcomp. destruct (Nat.eqb_spec j (Z.to_nat (n + 1))); [lra|]. rewrite <- (middle_0 z a b n FA) at 1. apply middle_mono; auto; [lra|lia]. }
      unfold square_at. assert (C0 : 0 <= rnd64 (hcomp z a b n j - a)) by (apply rnd_pos; lra).
      assert (C1 : rnd64 (hcomp z a b n j - a) <= rnd64 (hcomp z a b n k - a)) by (apply rnd64_mono; lra).
      apply rnd64_mono. apply Rmult_le_compat; auto. }
    destruct (Rle_lt_dec a b) as [G|G].
    + apply UP; auto. rewrite Rabs_right in S by lra. lra.
    + rewrite <- !(square_opp z a b). apply UP; try (apply generic_format_opp; auto). rewrite Rabs_left in S by lra. lra.
Qed.
Definition zero_step (a b : vec) (n : Z) : bool := Reqb (fstep (vx a) (vx b) n) 0 || Reqb (fstep (vy a) (vy b) n) 0 || Reqb (fstep (vz a) (vz b) n) 0.
Definition pt (a b : vec) (n : Z) (j : nat) : vec :=
  if Nat.eqb j (Z.to_nat (n + 1)) then b
  else V3 (fmiddle (zero_step a b n) (vx a) (vx b) n j) (fmiddle (zero_step a b n) (vy a) (vy b) n j) (fmiddle (zero_step a b n) (vz a) (vz b) n j).
Lemma flin_eq a b n : flinspace a b n = map (pt a b n) (seq 0 (Z.to_nat (n + 2))).
Proof. reflexivity. Qed.
Lemma comp_pt c a b n j : comp c (pt a b n j) = hcomp (zero_step a b n) (comp c a) (comp c b) n j.
Proof. unfold pt, hcomp. destruct (Nat.eqb _ _); destruct c; reflexivity. Qed.
Lemma pt_0 a b n : (0 <= n)%Z -> double3 a -> pt a b n 0 = a.
Proof.
  intros N D. apply comp_ext. intros c. rewrite comp_pt. unfold hcomp. destruct (Nat.eqb_spec 0 (Z.to_nat (n + 1))); [lia|]. apply middle_0, double_fmt, D.
Qed.
Lemma pt_last a b n : pt a b n (Z.to_nat (n + 1)) = b.
Proof. unfold pt. rewrite Nat.eqb_refl. reflexivity. Qed.
Lemma comp_sub c u v : comp c (vsub u v) = comp c u - comp c v.
Proof. destruct c; reflexivity. Qed.
Definition away (a b : vec) (n : Z) (j : nat) : R := fnorm (rnd3 (vsub (pt a b n j) a)).
Lemma fnorm_mono u v : (forall c, rnd64 (comp c u * comp c u) <= rnd64 (comp c v * comp c v)) -> fnorm u <= fnorm v.
Proof.
  intros H. unfold fnorm. apply rnd64_mono, sqrt_le_1_alt, rnd64_mono. apply Rplus_le_compat; [|apply (H X3)]. apply rnd64_mono, Rplus_le_compat; [apply (H X1)|apply (H X2)].
Qed.
Lemma fnorm_0 : fnorm vzero = 0.
Proof. unfold fnorm, vzero. cbn [vx vy vz]. rewrite !Rmult_0_l. repeat (rewrite rnd64_0 || rewrite Rplus_0_l || rewrite sqrt_0). reflexivity. Qed.
Lemma away_mono a b n j k : double3 a -> double3 b -> (0 <= n)%Z -> (n + 1 <= 2 ^ 50)%Z -> (j <= k)%nat -> (k <= Z.to_nat (n + 1))%nat ->
  away a b n j <= away a b n k.
Proof.
  intros DA DB N B J K. apply fnorm_mono. intros c. rewrite !comp_rnd3, !comp_sub, !comp_pt. apply square_mono; auto; apply double_fmt; auto.
Qed.
Lemma away_0 a b n : (0 <= n)%Z -> double3 a -> away a b n 0 = 0.
Proof.
  intros N D. unfold away. rewrite pt_0 by auto. rewrite <- fnorm_0. f_equal. apply comp_ext. intros c. rewrite comp_rnd3, comp_sub, Rminus_diag_eq by reflexivity. rewrite rnd64_0. destruct c; reflexivity.
Qed.
Lemma away_fmt a b n j : fmt (away a b n j).
Proof. apply rnd64_fmt. Qed.

(* ---------- the loops ---------- *)
Section Loops.
  Variables (norm1 : vec -> R) (at_ : string -> vec) (n : Z).
  Hypothesis Hn : (0 <= n)%Z.
  Let w := Z.to_nat (n + 2).
  Definition seg_points (s : string * string) := flinspace (at_ (fst s)) (at_ (snd s)) n.
  Lemma fpoints_sub_eq rest : forall prev acc, fpoints_sub at_ n prev rest acc = acc ++ concat (map seg_points (combine (prev :: rest) rest)).
  Proof.
    induction rest as [|name rest IH]; intros prev acc; [cbn; rewrite app_nil_r; reflexivity|]. cbn [fpoints_sub]. rewrite IH, <- app_assoc. reflexivity.
  Qed.
  Lemma fpoints_eq path : forall acc, fpoints at_ n path acc = acc ++ concat (map seg_points (segments path)).
  Proof.
    induction path as [|sp path IH]; intros acc; [cbn; rewrite app_nil_r; reflexivity|]. cbn [fpoints]. rewrite IH. unfold segments. cbn [flat_map]. rewrite map_app, concat_app, app_assoc. f_equal.
    destruct sp as [|h t]; [cbn; rewrite app_nil_r; reflexivity|]. apply fpoints_sub_eq.
  Qed.
  Lemma seg_points_length s : length (seg_points s) = w.
  Proof. unfold seg_points. rewrite flin_eq, map_length, seq_length. reflexivity. Qed.
  Lemma seg_points_nth s j : (j < w)%nat -> nth_error (seg_points s) j = Some (pt (at_ (fst s)) (at_ (snd s)) n j).
  Proof.
    intros J. unfold seg_points. rewrite flin_eq, nth_error_map. erewrite nth_error_nth' with (d := 0%nat) by (rewrite seq_length; exact J). rewrite seq_nth by exact J. reflexivity.
  Qed.
  Definition frow (t : R) (s : string * string) : list R := map (fun j => rnd64 (away (at_ (fst s)) (at_ (snd s)) n j + t)) (seq 0 w).
  Definition flen (s : string * string) := fnorm (rnd3 (vsub (at_ (snd s)) (at_ (fst s)))).
  Definition tnext (t : R) (s : string * string) := rnd64 (flen s + t).
  Fixpoint frows' (t : R) (segs : list (string * string)) : list (list R) := match segs with [] => [] | s :: r => frow t s :: frows' (tnext t s) r end.
  Lemma frow_nth t s j : (j < w)%nat -> nth_error (frow t s) j = Some (rnd64 (away (at_ (fst s)) (at_ (snd s)) n j + t)).
  Proof.
    intros J. unfold frow. rewrite nth_error_map. erewrite nth_error_nth' with (d := 0%nat) by (rewrite seq_length; exact J). rewrite seq_nth by exact J. reflexivity.
  Qed.
  Lemma w_S : w = S (Z.to_nat (n + 1)). Proof. unfold w. lia. Qed.
  Lemma last_row acc t s : last (acc ++ frow t s) 0 = tnext t s.
  Proof.
    unfold frow. rewrite w_S, seq_S, map_app, app_assoc. cbn [map Nat.add]. rewrite last_last. unfold tnext, flen, away. rewrite pt_last. reflexivity.
  Qed.
  Lemma frow_eq t s : map (fun d => rnd64 (d + t)) (map (fun p => fnorm (rnd3 (vsub p (at_ (fst s))))) (seg_points s)) = frow t s.
  Proof. unfold seg_points, frow. rewrite flin_eq, !map_map. reflexivity. Qed.
  Lemma frow_0 s : map (fun p => fnorm (rnd3 (vsub p (at_ (fst s))))) (seg_points s) = frow 0 s.
  Proof. rewrite <- frow_eq. rewrite map_map. apply map_ext. intros p. rewrite Rplus_0_r. symmetry. apply rnd64_id, rnd64_fmt. Qed.
  Lemma frows_app t a b : frows' t (a ++ b) = frows' t a ++ frows' (fold_left tnext a t) b.
  Proof. revert t; induction a as [|s a IH]; intros t; [reflexivity|]. cbn. rewrite IH. reflexivity. Qed.
  Lemma last_rows acc t segs : last acc 0 = t -> last (acc ++ concat (frows' t segs)) 0 = fold_left tnext segs t.
  Proof.
    revert acc t; induction segs as [|s segs IH]; intros acc t L; cbn [frows' List.concat fold_left]; [rewrite app_nil_r; exact L|].
    rewrite app_assoc. apply IH. apply last_row.
  Qed.
  Lemma fflat_sub_eq rest : forall prev acc, fflat_sub at_ n false prev rest acc = acc ++ concat (frows' (last acc 0) (combine (prev :: rest) rest)).
  Proof.
    induction rest as [|name rest IH]; intros prev acc; [cbn; rewrite app_nil_r; reflexivity|]. cbn [fflat_sub]. rewrite IH.
    change (flinspace (at_ prev) (at_ name) n) with (seg_points (prev, name)). pose proof (frow_eq (last acc 0) (prev, name)) as FE. cbn [fst] in FE. rewrite FE, last_row, <- app_assoc. reflexivity.
  Qed.
  Lemma fflat_loop_eq path : forall acc, fflat_loop at_ n false path acc = acc ++ concat (frows' (last acc 0) (segments path)).
  Proof.
    induction path as [|sp path IH]; intros acc; [cbn; rewrite app_nil_r; reflexivity|]. cbn [fflat_loop]. rewrite IH.
    unfold segments at 2. cbn [flat_map]. fold (segments path). destruct sp as [|h t]; [reflexivity|]. rewrite fflat_sub_eq. cbn [tl]. rewrite frows_app, concat_app, app_assoc. f_equal. f_equal. f_equal. apply last_rows. reflexivity.
  Qed.
  Lemma fflat_eq path : path <> [] -> long_enough path -> fflat_points at_ n path = concat (frows' 0 (segments path)).
  Proof.
    intros NE L. destruct path as [|sp path]; [congruence|]. inversion L as [|? ? L1 L2]; subst. destruct sp as [|h [|h2 t]]; [cbn in L1; lia|cbn in L1; lia|].
    unfold fflat_points. cbn [fflat_loop fflat_sub]. change (flinspace (at_ h) (at_ h2) n) with (seg_points (h, h2)). pose proof (frow_0 (h, h2)) as FE. cbn [fst] in FE. rewrite FE, fflat_sub_eq, fflat_loop_eq.
    change (segments ((h :: h2 :: t) :: path)) with ((h, h2) :: combine (h2 :: t) t ++ segments path). change (frows' 0 ((h, h2) :: combine (h2 :: t) t ++ segments path)) with (frow 0 (h, h2) :: frows' (tnext 0 (h, h2)) (combine (h2 :: t) t ++ segments path)).
    rewrite frows_app.
    pose proof (last_row [] 0 (h, h2)) as LR. cbn [app] in LR. rewrite LR. rewrite (last_rows (frow 0 (h, h2)) (tnext 0 (h, h2)) _ LR).
    set (r1 := frows' (tnext 0 (h, h2)) _). set (r2 := frows' (fold_left _ _ _) _). change (concat (frow 0 (h, h2) :: r1 ++ r2)) with (frow 0 (h, h2) ++ concat (r1 ++ r2)). rewrite concat_app, app_assoc. reflexivity.
  Qed.
  Definition tnext1 (t : R) (s : string * string) := rnd64 (norm1 (rnd3 (vsub (at_ (snd s)) (at_ (fst s)))) + t).
  Fixpoint faccum (t : R) (segs : list (string * string)) : list R := match segs with [] => [] | s :: r => tnext1 t s :: faccum (tnext1 t s) r end.
  Lemma faccum_app t a b : faccum t (a ++ b) = faccum t a ++ faccum (fold_left tnext1 a t) b.
  Proof. revert t; induction a as [|s a IH]; intros t; [reflexivity|]. cbn. rewrite IH. reflexivity. Qed.
  Lemma last_accum acc t segs : last acc 0 = t -> last (acc ++ faccum t segs) 0 = fold_left tnext1 segs t.
  Proof.
    revert acc t; induction segs as [|s segs IH]; intros acc t L; cbn [faccum fold_left]; [rewrite app_nil_r; exact L|].
    change (tnext1 t s :: faccum (tnext1 t s) segs) with ([tnext1 t s] ++ faccum (tnext1 t s) segs). rewrite app_assoc. apply IH. apply last_last.
  Qed.
  Lemma fticks_sub_eq rest : forall prev acc, fticks_sub norm1 at_ prev rest acc = acc ++ faccum (last acc 0) (combine (prev :: rest) rest).
  Proof.
    induction rest as [|name rest IH]; intros prev acc; [cbn; rewrite app_nil_r; reflexivity|]. cbn [fticks_sub]. rewrite IH, last_last, <- app_assoc. reflexivity.
  Qed.
  Lemma fticks_loop_eq path : forall acc, fticks_loop norm1 at_ false path acc = acc ++ faccum (last acc 0) (segments path).
  Proof.
    induction path as [|sp path IH]; intros acc; [cbn; rewrite app_nil_r; reflexivity|]. cbn [fticks_loop]. rewrite IH.
    unfold segments at 2. cbn [flat_map]. fold (segments path). destruct sp as [|h t]; [reflexivity|]. rewrite fticks_sub_eq. cbn [tl]. rewrite faccum_app, app_assoc. f_equal. f_equal. apply last_accum. reflexivity.
  Qed.
  Lemma fticks_eq path : path <> [] -> fticks norm1 at_ path = 0 :: faccum 0 (segments path).
  Proof.
    intros NE. destruct path as [|sp path]; [congruence|]. unfold fticks. cbn [fticks_loop app]. rewrite fticks_loop_eq. unfold segments. cbn [flat_map]. fold (segments path).
    destruct sp as [|h t]; [reflexivity|]. rewrite fticks_sub_eq. cbn [tl]. rewrite faccum_app. rewrite <- app_assoc. cbn [app last]. f_equal. f_equal. f_equal.
    apply (last_accum [0] 0). reflexivity.
  Qed.
End Loops.

(* ---------- property C82 ---------- *)
(* a path as the setter leaves it, coordinates that are doubles, a number of points that a memory can hold *)
Definition good_path (at_ : string -> vec) (n : Z) (path : list (list string)) : Prop :=
  path <> [] /\ (forall sp, In sp path -> (2 <= length sp)%nat) /\ (forall s, In s (concat path) -> double3 (at_ s)) /\ (0 <= n)%Z /\ (n + 1 <= 2 ^ 50)%Z.
Lemma good_long at_ n path : good_path at_ n path -> long_enough path.
Proof. intros (_ & L & _). apply Forall_forall. exact L. Qed.
Lemma in_segments path s : In s (segments path) -> In (fst s) (concat path) /\ In (snd s) (concat path).
Proof.
  unfold segments. intros H. apply in_flat_map in H. destruct H as (sp & P & H). destruct s as [a b]. cbn [fst snd].
  split; apply in_concat; exists sp; (split; [exact P|]); [eapply in_combine_l; eauto|]. apply in_combine_r in H. destruct sp; [inversion H|right; exact H].
Qed.
Lemma good_segments at_ n path s : good_path at_ n path -> In s (segments path) -> double3 (at_ (fst s)) /\ double3 (at_ (snd s)).
Proof. intros (_ & _ & D & _) H. apply in_segments in H. split; apply D; apply H. Qed.

(* every segment begins and ends exactly at its high-symmetry points, and the points between are where they should be up to rounding *)
Theorem C82_points : forall at_ n path i a b, good_path at_ n path -> nth_error (segments path) i = Some (a, b) ->
  let w := Z.to_nat (n + 2) in let ps := fpoints at_ n path [] in
  length ps = (length (segments path) * w)%nat /\
  nth_error ps (i * w) = Some (at_ a) /\ nth_error ps (i * w + Z.to_nat (n + 1)) = Some (at_ b) /\
  forall j, (j < w)%nat -> exists p, nth_error ps (i * w + j) = Some p /\ double3 p /\
    forall c, let x := comp c (at_ a) in let y := comp c (at_ b) in
      Rabs (comp c p - (x + INR j / IZR (n + 1) * (y - x))) <= (Rabs x + Rabs y) / 2 ^ 49 + bpow radix2 (-1000).
Proof.
  intros at_ n path i a b G S w ps. pose proof G as (_ & _ & _ & N & B).
  destruct (good_segments _ _ _ _ G (nth_error_In _ _ S)) as (DA & DB). cbn [fst snd] in DA, DB.
  assert (F : Forall (fun r => length r = w) (map (seg_points at_ n) (segments path))) by (rewrite Forall_map; apply Forall_forall; intros s _; apply seg_points_length).
  assert (PE : ps = concat (map (seg_points at_ n) (segments path))) by (unfold ps; rewrite fpoints_eq; reflexivity).
  assert (AT : forall j, (j < w)%nat -> nth_error ps (i * w + j) = Some (pt (at_ a) (at_ b) n j)).
  { intros j J. rewrite PE. rewrite (nth_concat _ w F i j (seg_points at_ n (a, b))); [apply (seg_points_nth at_ n (a, b)); exact J|exact J|rewrite nth_error_map, S; reflexivity]. }
  split; [rewrite PE, (length_concat _ w F), map_length; reflexivity|]. split; [|split].
  - rewrite <- (Nat.add_0_r (i * w)), AT by (unfold w; lia). rewrite pt_0 by auto. reflexivity.
  - rewrite AT by (unfold w; lia). rewrite pt_last. reflexivity.
  - intros j J. exists (pt (at_ a) (at_ b) n j). split; [apply AT, J|]. split.
    + intros c. rewrite comp_pt. unfold hcomp. destruct (Nat.eqb j _); [apply DB|]. apply double_fmt. unfold fmiddle. apply rnd64_fmt.
    + intros c x y. rewrite comp_pt. fold x y. unfold hcomp. destruct (Nat.eqb_spec j (Z.to_nat (n + 1))) as [E|E].
      * rewrite E, INR_IZR_INZ, Z2Nat.id by lia. pose proof (div_pos n N). replace (IZR (n + 1) / IZR (n + 1)) with 1 by (field; lra).
        replace (y - (x + 1 * (y - x))) with 0 by ring. rewrite Rabs_R0. pose proof (bpow_gt_0 radix2 (-1000)). pose proof (Rabs_pos x). pose proof (Rabs_pos y). lra.
      * apply middle_near; auto. unfold w in J. lia.
Qed.
Print Assumptions C82_points.
(* the flat coordinates start at 0 and never decrease *)
Theorem C82_flat_monotone : forall at_ n path, good_path at_ n path ->
  nth_error (fflat_points at_ n path) 0 = Some 0 /\ nondecreasing (fflat_points at_ n path).
Proof.
  intros at_ n path G. pose proof G as (NE & _ & _ & N & B). rewrite fflat_eq by (auto; eapply good_long; eauto).
  assert (D : Forall (fun s => double3 (at_ (fst s)) /\ double3 (at_ (snd s))) (segments path)) by (apply Forall_forall; intros s; apply (good_segments _ _ _ _ G)).
  assert (NS : segments path <> []).
  { pose proof (good_long _ _ _ G) as L. destruct path as [|[|a [|b sp]] path]; [congruence|inversion L; cbn in *; lia|inversion L; cbn in *; lia|discriminate]. }
  set (segs := segments path) in *. clearbody segs. clear G NE.
  assert (W : (0 < Z.to_nat (n + 2))%nat) by lia. assert (LR : forall t s, length (frow at_ n t s) = Z.to_nat (n + 2)) by (intros; unfold frow; rewrite map_length, seq_length; reflexivity).
  assert (START : forall t s, fmt t -> double3 (at_ (fst s)) -> nth_error (frow at_ n t s) 0 = Some t).
  { intros t s F DA. rewrite frow_nth by auto. rewrite away_0, Rplus_0_l by auto. rewrite rnd64_id by auto. reflexivity. }
  assert (IN : forall t s j k x y, double3 (at_ (fst s)) /\ double3 (at_ (snd s)) -> (j <= k)%nat -> nth_error (frow at_ n t s) j = Some x -> nth_error (frow at_ n t s) k = Some y -> x <= y).
  { intros t s j k x y (DA & DB) J X Y. assert (K : (k < Z.to_nat (n + 2))%nat) by (rewrite <- (LR t s); apply nth_error_Some; congruence).
    rewrite frow_nth in X, Y by lia. injection X as <-. injection Y as <-. apply rnd64_mono, Rplus_le_compat_r, away_mono; auto. lia. }
  assert (END : forall t s, nth_error (frow at_ n t s) (Z.to_nat (n + 1)) = Some (tnext at_ t s)).
  { intros t s. rewrite frow_nth by lia. unfold tnext, flen, away. rewrite pt_last. reflexivity. }
  assert (Low : forall segs t j y, fmt t -> Forall (fun s => double3 (at_ (fst s)) /\ double3 (at_ (snd s))) segs -> nth_error (concat (frows' at_ n t segs)) j = Some y -> t <= y).
  { induction segs0 as [|s segs0 IH]; intros t j y F DD H; [destruct j; discriminate|]. cbn [frows' List.concat] in H. inversion DD as [|? ? D1 D2]; subst.
    destruct (Nat.lt_ge_cases j (Z.to_nat (n + 2))) as [C|C].
    - rewrite nth_error_app1 in H by (rewrite LR; auto). apply (IN t s 0%nat j t y D1); [lia|apply START; [auto|apply D1]|exact H].
    - rewrite nth_error_app2 in H by (rewrite LR; auto). apply IH in H; [|apply rnd64_fmt|auto]. apply Rle_trans with (tnext at_ t s); [|exact H].
      apply (IN t s 0%nat (Z.to_nat (n + 1)) t _ D1); [lia|apply START; [auto|apply D1]|apply END]. }
  split.
  - destruct segs as [|s segs]; [congruence|]. cbn [frows' List.concat]. inversion D as [|? ? D1 D2]; subst. rewrite nth_error_app1 by (rewrite LR; auto). apply START; [apply fmt0|apply D1].
  - clear NS. assert (F0 : fmt 0) by apply fmt0. revert F0. generalize 0. induction segs as [|s segs IH]; intros t FT i j x y Hij Ex Ey; [destruct i; discriminate|].
    cbn [frows' List.concat] in Ex, Ey. inversion D as [|? ? D1 D2]; subst.
    destruct (Nat.lt_ge_cases i (Z.to_nat (n + 2))) as [C|C]; destruct (Nat.lt_ge_cases j (Z.to_nat (n + 2))) as [C2|C2]; try lia.
    + rewrite nth_error_app1 in Ex, Ey by (rewrite LR; auto). exact (IN t s i j x y D1 Hij Ex Ey).
    + rewrite nth_error_app1 in Ex by (rewrite LR; auto). rewrite nth_error_app2 in Ey by (rewrite LR; auto). apply Low in Ey; [|apply rnd64_fmt|auto].
      apply Rle_trans with (tnext at_ t s); [|exact Ey]. apply (IN t s i (Z.to_nat (n + 1)) x _ D1); [lia|exact Ex|apply END].
    + rewrite nth_error_app2 in Ex, Ey by (rewrite LR; auto). rewrite LR in Ex, Ey. eapply (IH D2 (tnext at_ t s)); [apply rnd64_fmt| |exact Ex|exact Ey]. lia.
Qed.
Print Assumptions C82_flat_monotone.
(* the ticks do not decrease either, whatever routine computes the norms *)
Theorem C82_ticks_monotone : forall norm1 at_ path, (forall v, 0 <= norm1 v) -> path <> [] ->
  nth_error (fticks norm1 at_ path) 0 = Some 0 /\ nondecreasing (fticks norm1 at_ path).
Proof.
  intros norm1 at_ path P NE. rewrite fticks_eq by auto. split; [reflexivity|]. set (segs := segments path). clearbody segs.
  enough (H : forall t, fmt t -> nondecreasing (t :: faccum norm1 at_ t segs)) by (apply H, fmt0).
  assert (UP : forall t s, fmt t -> t <= tnext1 norm1 at_ t s) by (intros t s F; apply rnd64_ge; [auto|]; pose proof (P (rnd3 (vsub (at_ (snd s)) (at_ (fst s))))); lra).
  assert (Low : forall segs t j y, fmt t -> nth_error (t :: faccum norm1 at_ t segs) j = Some y -> t <= y).
  { induction segs0 as [|s segs0 IH]; intros t [|j] y F H; cbn in H; try (injection H as <-; lra); [destruct j; discriminate|].
    apply (IH (tnext1 norm1 at_ t s) j y) in H; [|apply rnd64_fmt]. pose proof (UP t s F). lra. }
  induction segs as [|s segs IH]; intros t FT i j x y Hij Ex Ey.
  - destruct i, j; cbn in *; try (destruct i; discriminate); try (destruct j; discriminate). assert (x = y) by congruence. lra.
  - destruct i as [|i]; [cbn in Ex; injection Ex as <-; eapply Low; eauto|]. destruct j as [|j]; [lia|]. cbn [faccum nth_error] in Ex, Ey. eapply (IH (tnext1 norm1 at_ t s)); [apply rnd64_fmt| |exact Ex|exact Ey]. lia.
Qed.
Print Assumptions C82_ticks_monotone.
(* if the two routines for norms agree on the segments, the ticks are exactly the flat coordinates of the ends of the segments *)
Theorem C82_ticks_are_flat_points : forall norm1 at_ n path i a b, good_path at_ n path ->
  (forall c d, In (c, d) (segments path) -> norm1 (rnd3 (vsub (at_ d) (at_ c))) = fnorm (rnd3 (vsub (at_ d) (at_ c)))) ->
  nth_error (segments path) i = Some (a, b) ->
  let w := Z.to_nat (n + 2) in
  exists t t', nth_error (fticks norm1 at_ path) i = Some t /\ nth_error (fticks norm1 at_ path) (S i) = Some t' /\
    nth_error (fflat_points at_ n path) (i * w) = Some t /\ nth_error (fflat_points at_ n path) (i * w + Z.to_nat (n + 1)) = Some t'.
Proof.
  intros norm1 at_ n path i a b G AG S w. pose proof G as (NE & _ & _ & N & B). rewrite fticks_eq by auto. rewrite fflat_eq by (auto; eapply good_long; eauto).
  assert (D : forall s, In s (segments path) -> double3 (at_ (fst s)) /\ double3 (at_ (snd s))) by (intros s; apply (good_segments _ _ _ _ G)).
  set (segs := segments path) in *. clearbody segs. clear G NE.
  assert (LR : forall t s, length (frow at_ n t s) = w) by (intros; unfold frow; rewrite map_length, seq_length; reflexivity).
  enough (H : forall t0, fmt t0 -> exists t t', nth_error (t0 :: faccum norm1 at_ t0 segs) i = Some t /\ nth_error (t0 :: faccum norm1 at_ t0 segs) (Datatypes.S i) = Some t' /\
    nth_error (concat (frows' at_ n t0 segs)) (i * w) = Some t /\ nth_error (concat (frows' at_ n t0 segs)) (i * w + Z.to_nat (n + 1)) = Some t') by (apply H, fmt0).
  revert i S. induction segs as [|s segs IH]; intros i S t FT; [destruct i; discriminate|].
  assert (TN : tnext1 norm1 at_ t s = tnext at_ t s) by (unfold tnext1, tnext, flen; rewrite <- AG by (left; destruct s; reflexivity); reflexivity).
  destruct i as [|i].
  - cbn in S. injection S as ->. exists t, (tnext at_ t (a, b)). cbn [nth_error faccum]. rewrite TN. split; [reflexivity|]. split; [reflexivity|]. cbn [frows' List.concat Nat.mul Nat.add].
    split; rewrite nth_error_app1 by (rewrite LR; unfold w; lia); rewrite frow_nth by lia.
    + rewrite away_0, Rplus_0_l by (auto; apply (D (a, b)); left; reflexivity). rewrite rnd64_id by auto. reflexivity.
    + unfold away. rewrite pt_last. reflexivity.
  - cbn [nth_error] in S. destruct (IH (fun c d H => AG c d (or_intror H)) (fun x H => D x (or_intror H)) i S (tnext at_ t s) (rnd64_fmt _)) as (t1 & t2 & T1 & T2 & T3 & T4).
    exists t1, t2. cbn [faccum]. rewrite TN. split; [exact T1|]. split; [exact T2|]. cbn [frows' List.concat]. split.
    + rewrite nth_error_app2 by (rewrite LR; lia). rewrite LR. replace (Datatypes.S i * w - w)%nat with (i * w)%nat by lia. exact T3.
    + rewrite nth_error_app2 by (rewrite LR; lia). rewrite LR. replace (Datatypes.S i * w + Z.to_nat (n + 1) - w)%nat with (i * w + Z.to_nat (n + 1))%nat by lia. exact T4.
Qed.
Print Assumptions C82_ticks_are_flat_points.
(* ---------- how far the flat coordinates are from the distances ---------- *)
Definition delta0 := bpow radix2 (-530).
Lemma delta0_pos : 0 < delta0. Proof. apply bpow_gt_0. Qed.
Lemma delta0_sq : eta * 2 ^ 15 = delta0 * delta0.
Proof. unfold eta, delta0. replace (2 ^ 15) with (bpow radix2 15) by (cbn; lra). rewrite <- !bpow_plus. reflexivity. Qed.
Lemma eta_delta : eta * 2 ^ 100 <= delta0.
Proof. unfold eta, delta0. replace (2 ^ 100) with (bpow radix2 100) by (cbn; lra). rewrite <- bpow_plus. apply bpow_le. lia. Qed.
Lemma rnd_both x : 0 <= x -> x * (1 - / 2 ^ 53) - eta <= rnd64 x <= x * (1 + / 2 ^ 53) + eta.
Proof. intros H. pose proof (rnd64_error x) as E. rewrite (Rabs_right x) in E by lra. fold eta in E. apply Rabs_le_inv in E. unfold Rdiv in E. lra. Qed.
Lemma sqrt_near s S : 0 <= s -> 0 <= S -> S * (1 - / 2 ^ 51) - 8 * eta <= s <= S * (1 + / 2 ^ 51) + 8 * eta ->
  sqrt S * (1 - / 2 ^ 51) - delta0 <= sqrt s <= sqrt S * (1 + / 2 ^ 51) + delta0.
Proof.
  intros P0 P1 (L & U). pose proof delta0_pos as D0. pose proof delta0_sq as D2. pose proof eta_pos as E0. pose proof (sqrt_pos S) as R0. pose proof (sqrt_sqrt S P1) as SQ.
  assert (ED : 8 * eta <= delta0 * delta0) by lra. set (u := / 2 ^ 51) in *. assert (U0 : 0 < u < 1) by (unfold u; lra). clearbody u. set (r := sqrt S) in *. clearbody r. set (d := delta0) in *. clearbody d. split.
  - destruct (Rle_lt_dec (r * (1 - u)) d) as [C|C]; [pose proof (sqrt_pos s); lra|].
    rewrite <- (sqrt_square (r * (1 - u) - d)) by lra. apply sqrt_le_1_alt. apply Rle_trans with (S * (1 - u) - 8 * eta); [|exact L]. rewrite <- SQ.
    assert (r * (1 - u) * (r * (1 - u)) <= r * r * (1 - u)) by (replace (r * (1 - u) * (r * (1 - u))) with (r * r * (1 - u) * (1 - u)) by ring; assert (0 <= r * r * (1 - u)) by (apply Rmult_le_pos; nra); nra).
    assert (d * d <= r * (1 - u) * d) by (apply Rmult_le_compat_r; lra). lra.
  - rewrite <- (sqrt_square (r * (1 + u) + d)) by nra. apply sqrt_le_1_alt. apply Rle_trans with (S * (1 + u) + 8 * eta); [exact U|]. rewrite <- SQ.
    assert (r * r * (1 + u) <= r * (1 + u) * (r * (1 + u))) by (replace (r * (1 + u) * (r * (1 + u))) with (r * r * (1 + u) * (1 + u)) by ring; assert (0 <= r * r * (1 + u)) by (apply Rmult_le_pos; nra); nra).
    assert (0 <= r * (1 + u) * d) by (apply Rmult_le_pos; nra). lra.
Qed.
Lemma fnorm_near v : Rabs (fnorm v - norm v) <= norm v / 2 ^ 50 + 2 * delta0.
Proof.
  unfold fnorm, norm, dot. set (x := vx v * vx v). set (y := vy v * vy v). set (z := vz v * vz v).
  assert (X : 0 <= x) by apply Rle_0_sqr. assert (Y : 0 <= y) by apply Rle_0_sqr. assert (Z : 0 <= z) by apply Rle_0_sqr. clearbody x y z.
  pose proof (rnd_both x X) as BX. pose proof (rnd_both y Y) as BY. pose proof (rnd_both z Z) as BZ. pose proof eta_pos as E0.
  pose proof (rnd_pos x X) as PX. pose proof (rnd_pos y Y) as PY. pose proof (rnd_pos z Z) as PZ. pose proof (rnd_both (rnd64 x + rnd64 y) ltac:(lra)) as BXY. pose proof (rnd_pos (rnd64 x + rnd64 y) ltac:(lra)) as PXY.
  set (xy := rnd64 (rnd64 x + rnd64 y)) in *. pose proof (rnd_both (xy + rnd64 z) ltac:(lra)) as BS. pose proof (rnd_pos (xy + rnd64 z) ltac:(lra)) as PS. set (s := rnd64 (xy + rnd64 z)) in *.
  assert (N : (x + y + z) * (1 - / 2 ^ 51) - 8 * eta <= s <= (x + y + z) * (1 + / 2 ^ 51) + 8 * eta) by lra.
  apply sqrt_near in N; [|lra|lra]. pose proof (rnd_both (sqrt s) (sqrt_pos s)) as BR. pose proof (sqrt_pos (x + y + z)) as R0. pose proof delta0_pos. pose proof eta_delta.
  set (r := sqrt (x + y + z)) in *. clearbody r. set (q := sqrt s) in *. clearbody q. apply Rabs_le. lra.
Qed.
Lemma comp_le_norm c v : Rabs (comp c v) <= norm v.
Proof.
  rewrite <- sqrt_Rsqr_abs. unfold norm. apply sqrt_le_1_alt. unfold dot, Rsqr. pose proof (Rle_0_sqr (vx v)). pose proof (Rle_0_sqr (vy v)). pose proof (Rle_0_sqr (vz v)). unfold Rsqr in *. destruct c; cbn [comp]; lra.
Qed.
Lemma norm_le_sum v : norm v <= Rabs (vx v) + Rabs (vy v) + Rabs (vz v).
Proof.
  pose proof (Rabs_pos (vx v)). pose proof (Rabs_pos (vy v)). pose proof (Rabs_pos (vz v)). unfold norm. rewrite <- (sqrt_square (Rabs (vx v) + Rabs (vy v) + Rabs (vz v))) by lra. apply sqrt_le_1_alt. unfold dot.
  pose proof (Rsqr_abs (vx v)) as A. pose proof (Rsqr_abs (vy v)) as B. pose proof (Rsqr_abs (vz v)) as C. unfold Rsqr in *. rewrite A, B, C. nra.
Qed.
Lemma rnd3_near v : Rabs (norm (rnd3 v) - norm v) <= norm v / 2 ^ 51 + delta0.
Proof.
  assert (T : norm (vsub (rnd3 v) v) <= norm v / 2 ^ 51 + delta0).
  { eapply Rle_trans; [apply norm_le_sum|]. pose proof eta_delta. pose proof eta_pos. pose proof (norm_nonneg v).
    pose proof (rnd64_error (vx v)) as A. pose proof (rnd64_error (vy v)) as B. pose proof (rnd64_error (vz v)) as C. fold eta in A, B, C.
    pose proof (comp_le_norm X1 v) as A1. pose proof (comp_le_norm X2 v) as B1. pose proof (comp_le_norm X3 v) as C1. cbn [comp] in A1, B1, C1.
    change (vx (vsub (rnd3 v) v)) with (rnd64 (vx v) - vx v). change (vy (vsub (rnd3 v) v)) with (rnd64 (vy v) - vy v). change (vz (vsub (rnd3 v) v)) with (rnd64 (vz v) - vz v). lra. }
  pose proof (norm_triangle (vsub (rnd3 v) v) v) as T1. pose proof (norm_triangle (vneg (vsub (rnd3 v) v)) (rnd3 v)) as T2. rewrite norm_neg in T2.
  replace (vadd (vsub (rnd3 v) v) v) with (rnd3 v) in T1 by (apply comp_ext; intros []; cbn; ring). replace (vadd (vneg (vsub (rnd3 v) v)) (rnd3 v)) with v in T2 by (apply comp_ext; intros []; cbn; ring).
  apply Rabs_le. lra.
Qed.
Lemma flat_step d t v : 0 <= t -> Rabs (d - norm v) <= norm v / 2 ^ 49 + 5 * delta0 -> Rabs (rnd64 (d + t) - (t + norm v)) <= (t + norm v) / 2 ^ 48 + 8 * delta0.
Proof.
  intros T D. pose proof (rnd64_error (d + t)) as E. fold eta in E. pose proof (norm_nonneg v) as NN. pose proof eta_delta. pose proof eta_pos. pose proof delta0_pos. set (r := norm v) in *. clearbody r.
  assert (A : Rabs (d + t) <= 2 * (t + r) + 5 * delta0) by (apply Rabs_le_inv in D; apply Rabs_le; lra). apply Rabs_le_inv in D. apply Rabs_le. unfold Rdiv in *. 
  assert (EE : Rabs (rnd64 (d + t) - (d + t)) <= (t + r) / 2 ^ 52 + 5 * delta0 / 2 ^ 53 + eta) by lra. apply Rabs_le_inv in EE. lra.
Qed.
Lemma away_near a b n j : Rabs (away a b n j - norm (vsub (pt a b n j) a)) <= norm (vsub (pt a b n j) a) / 2 ^ 49 + 5 * delta0.
Proof.
  unfold away. set (v := vsub _ _). pose proof (fnorm_near (rnd3 v)) as A. pose proof (rnd3_near v) as B. pose proof (norm_nonneg v). pose proof delta0_pos.
  apply Rabs_le_inv in A, B. apply Rabs_le. lra.
Qed.

(* every flat coordinate is the one of the start of its segment and the distance from that start, up to rounding *)
Theorem C82_flat_distance : forall at_ n path i a b j, good_path at_ n path -> nth_error (segments path) i = Some (a, b) ->
  let w := Z.to_nat (n + 2) in (j < w)%nat ->
  exists t x p, nth_error (fflat_points at_ n path) (i * w) = Some t /\ nth_error (fflat_points at_ n path) (i * w + j) = Some x /\
    nth_error (fpoints at_ n path []) (i * w + j) = Some p /\
    Rabs (x - (t + norm (vsub p (at_ a)))) <= (t + norm (vsub p (at_ a))) / 2 ^ 48 + bpow radix2 (-527).
Proof.
  intros at_ n path i a b j G S w J. pose proof (C82_flat_monotone _ _ _ G) as (Z0 & M). pose proof G as (NE & _ & _ & N & B).
  assert (D : forall s, In s (segments path) -> double3 (at_ (fst s)) /\ double3 (at_ (snd s))) by (intros s; apply (good_segments _ _ _ _ G)).
  assert (FP : Forall (fun r => length r = w) (map (seg_points at_ n) (segments path))) by (rewrite Forall_map; apply Forall_forall; intros s _; apply seg_points_length).
  assert (PN : nth_error (fpoints at_ n path []) (i * w + j) = Some (pt (at_ a) (at_ b) n j)).
  { rewrite fpoints_eq. cbn [app]. rewrite (nth_concat _ w FP i j (seg_points at_ n (a, b))); [apply (seg_points_nth at_ n (a, b)); exact J|exact J|rewrite nth_error_map, S; reflexivity]. }
  rewrite PN. rewrite fflat_eq in * by (auto; eapply good_long; eauto).
  assert (H : exists t, nth_error (concat (frows' at_ n 0 (segments path))) (i * w) = Some t /\
    nth_error (concat (frows' at_ n 0 (segments path))) (i * w + j) = Some (rnd64 (away (at_ a) (at_ b) n j + t))).
  { clear Z0 M PN FP G NE. set (segs := segments path) in *. clearbody segs.
    assert (LR : forall t s, length (frow at_ n t s) = w) by (intros; unfold frow; rewrite map_length, seq_length; reflexivity).
    enough (H : forall t0, fmt t0 -> exists t, nth_error (concat (frows' at_ n t0 segs)) (i * w) = Some t /\ nth_error (concat (frows' at_ n t0 segs)) (i * w + j) = Some (rnd64 (away (at_ a) (at_ b) n j + t))) by (apply H, fmt0).
    revert i S. induction segs as [|s segs IH]; intros i S t FT; [destruct i; discriminate|]. destruct i as [|i].
    - cbn in S. injection S as ->. exists t. cbn [frows' List.concat Nat.mul Nat.add]. split; rewrite nth_error_app1 by (rewrite LR; unfold w in *; lia); rewrite frow_nth by (unfold w in *; lia).
      + rewrite away_0, Rplus_0_l by (auto; apply (D (a, b)); left; reflexivity). rewrite rnd64_id by auto. reflexivity.
      + reflexivity.
    - cbn [nth_error] in S. destruct (IH (fun x H => D x (or_intror H)) i S (tnext at_ t s) (rnd64_fmt _)) as (t1 & T1 & T2). exists t1. cbn [frows' List.concat]. split.
      + rewrite nth_error_app2 by (rewrite LR; lia). rewrite LR. replace (Datatypes.S i * w - w)%nat with (i * w)%nat by lia. exact T1.
      + rewrite nth_error_app2 by (rewrite LR; lia). rewrite LR. replace (Datatypes.S i * w + j - w)%nat with (i * w + j)%nat by lia. exact T2. }
  destruct H as (t & T1 & T2). exists t, (rnd64 (away (at_ a) (at_ b) n j + t)), (pt (at_ a) (at_ b) n j). split; [exact T1|]. split; [exact T2|]. split; [reflexivity|].
  assert (T0 : 0 <= t) by (apply (M 0%nat (i * w)%nat 0 t); [lia|exact Z0|exact T1]).
  replace (bpow radix2 (-527)) with (8 * delta0) by (unfold delta0; change 8 with (bpow radix2 3); rewrite <- bpow_plus; reflexivity). apply flat_step; [exact T0|apply away_near].
Qed.
Print Assumptions C82_flat_distance.
(* the ticks are apart by the lengths of the segments, up to rounding, for every norm routine that is right up to a few roundings *)
Definition accurate_norm (norm1 : vec -> R) : Prop := forall v, 0 <= norm1 v /\ Rabs (norm1 v - norm v) <= norm v / 2 ^ 50 + bpow radix2 (-529).
Theorem C82_ticks_distance : forall norm1 at_ path i a b, accurate_norm norm1 -> path <> [] -> nth_error (segments path) i = Some (a, b) ->
  length (fticks norm1 at_ path) = S (length (segments path)) /\
  exists t t', nth_error (fticks norm1 at_ path) i = Some t /\ nth_error (fticks norm1 at_ path) (S i) = Some t' /\
    Rabs (t' - (t + norm (vsub (at_ b) (at_ a)))) <= (t + norm (vsub (at_ b) (at_ a))) / 2 ^ 48 + bpow radix2 (-527).
Proof.
  intros norm1 at_ path i a b AC NE S. pose proof (C82_ticks_monotone norm1 at_ path (fun v => proj1 (AC v)) NE) as (Z0 & M).
  rewrite fticks_eq in * by auto. set (segs := segments path) in *. clearbody segs.
  assert (L : forall l t, length (faccum norm1 at_ t l) = length l) by (induction l as [|s l IH]; intros t; cbn; [reflexivity|rewrite IH; reflexivity]).
  split; [cbn [length]; rewrite L; reflexivity|].
  assert (H : exists t, nth_error (0 :: faccum norm1 at_ 0 segs) i = Some t /\ nth_error (0 :: faccum norm1 at_ 0 segs) (Datatypes.S i) = Some (tnext1 norm1 at_ t (a, b))).
  { clear Z0 M. revert i S. generalize 0. induction segs as [|s segs IH]; intros t i S; [destruct i; discriminate|]. destruct i as [|i].
    - cbn in S. injection S as ->. exists t. split; reflexivity.
    - cbn [nth_error] in S. destruct (IH (tnext1 norm1 at_ t s) i S) as (t1 & T1 & T2). exists t1. cbn [faccum]. split; [exact T1|exact T2]. }
  destruct H as (t & T1 & T2). exists t, (tnext1 norm1 at_ t (a, b)). split; [exact T1|]. split; [exact T2|].
  assert (T0 : 0 <= t) by (apply (M 0%nat i 0 t); [lia|exact Z0|exact T1]).
  replace (bpow radix2 (-527)) with (8 * delta0) by (unfold delta0; change 8 with (bpow radix2 3); rewrite <- bpow_plus; reflexivity).
  unfold tnext1. cbn [fst snd]. apply flat_step; [exact T0|]. set (v := vsub _ _). destruct (AC (rnd3 v)) as (_ & A). pose proof (rnd3_near v) as B. pose proof (norm_nonneg v). pose proof delta0_pos.
  replace (bpow radix2 (-529)) with (2 * delta0) in A by (unfold delta0; change 2 with (bpow radix2 1); rewrite <- bpow_plus; reflexivity).
  apply Rabs_le_inv in A, B. apply Rabs_le. lra.
Qed.
Print Assumptions C82_ticks_distance.
(* the routine for rows is such a routine *)
Example C82_ticks_case : accurate_norm fnorm.
Proof.
  intros v. split; [unfold fnorm; apply rnd_pos, sqrt_pos|]. eapply Rle_trans; [apply fnorm_near|]. pose proof delta0_pos.
  replace (bpow radix2 (-529)) with (2 * delta0) by (unfold delta0; change 2 with (bpow radix2 1); rewrite <- bpow_plus; reflexivity). apply Rle_refl.
Qed.
Open Scope string_scope.
Open Scope R_scope.
(* a path of two branches with coordinates that are not sums of a few powers of two *)
Definition third : R := rnd64 (1/3).
Definition case_at (s : string) : vec := if String.eqb s "GAMMA" then V3 0 0 0 else if String.eqb s "K" then V3 third third 0 else V3 (1/2) 0 (1/2).
Example C82_case : good_path case_at 10 [["GAMMA"; "K"; "L"]; ["L"; "GAMMA"]] /\ nth_error (segments [["GAMMA"; "K"; "L"]; ["L"; "GAMMA"]]) 1 = Some ("K", "L") /\ (forall v, 0 <= fnorm v).
Proof.
  split; [|split; [reflexivity|]].
  - split; [discriminate|]. split; [intros sp [<-|[<-|[]]]; cbn; lia|]. split; [|lia].
    assert (H : is_double (1/2)) by (exists 1%Z, (-1)%Z; split; [cbn; lra|split; lia]).
    assert (T : is_double third) by apply double_fmt, rnd64_fmt. assert (Z0 : is_double 0) by apply double_fmt, fmt0.
    intros s S. assert (C : s = "GAMMA" \/ s = "K" \/ s = "L") by (cbn in S; intuition congruence). destruct C as [->|[->| ->]]; intros []; cbn; auto.
  - intros v. unfold fnorm. apply rnd_pos, sqrt_pos.
Qed.
