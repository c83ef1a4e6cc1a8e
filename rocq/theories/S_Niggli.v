(* S_Niggli.v : specification of a Niggli-reduced set of parameters, following
   Krivy & Gruber 1976 (conditions (1)-(4) of the main definition), independent of the
   algorithm; tol = 0 is the textbook definition. *)
From Verif Require Import Base M_Niggli.
Open Scope R_scope.

Definition near (tol x y : R) := Rabs (x - y) <= tol.

Record reduced (tol : R) (p : npar) : Prop := {
  red_AB : nA p <= nB p + tol;
  red_BC : nB p <= nC p + tol;
  red_tie1 : near tol (nA p) (nB p) -> Rabs (nxi p) <= Rabs (neta p) + tol;
  red_tie2 : near tol (nB p) (nC p) -> Rabs (neta p) <= Rabs (nzeta p) + tol;
  red_sign : (0 < nxi p /\ 0 < neta p /\ 0 < nzeta p) \/ (nxi p <= 0 /\ neta p <= 0 /\ nzeta p <= 0);
  red_xi : Rabs (nxi p) <= nB p + tol;
  red_eta : Rabs (neta p) <= nA p + tol;
  red_zeta : Rabs (nzeta p) <= nA p + tol;
  red_xi_p : near tol (nxi p) (nB p) -> nzeta p <= 2 * neta p + tol;
  red_eta_p : near tol (neta p) (nA p) -> nzeta p <= 2 * nxi p + tol;
  red_zeta_p : near tol (nzeta p) (nA p) -> neta p <= 2 * nxi p + tol;
  red_xi_m : near tol (nxi p) (- nB p) -> - tol <= nzeta p;
  red_eta_m : near tol (neta p) (- nA p) -> - tol <= nzeta p;
  red_zeta_m : near tol (nzeta p) (- nA p) -> - tol <= neta p;
  red_sum : - tol <= nxi p + neta p + nzeta p + nA p + nB p;
  red_sum_tie : near tol (nxi p + neta p + nzeta p + nA p + nB p) 0 ->
                2 * (nA p + neta p) + nzeta p <= tol
}.

(* The six numbers of a cell, straight from its row vectors. *)
Definition cell_params (cell : mat) : npar :=
  NP (dot (row1 cell) (row1 cell)) (dot (row2 cell) (row2 cell)) (dot (row3 cell) (row3 cell))
     (2 * dot (row2 cell) (row3 cell)) (2 * dot (row1 cell) (row3 cell)) (2 * dot (row1 cell) (row2 cell)).
Definition niggli_reduced (cell : mat) : Prop := reduced 0 (cell_params cell).

(* Every entry of the metric tensor (and twice the off-diagonal ones) is a multiple of q. *)
Definition multiple (q x : R) := exists z : Z, x = q * IZR z.
Definition quantised (q : R) (p : npar) : Prop :=
  multiple q (nA p) /\ multiple q (nB p) /\ multiple q (nC p) /\
  multiple q (nxi p) /\ multiple q (neta p) /\ multiple q (nzeta p).
