(* M_Niggli.v : model of /repo/src/wulfric/cell/_niggli.py *)
From Verif Require Import Base M_Strings M_Numerical M_Geometry.
From Coq Require Import Rpower.
Open Scope R_scope.

(* The tuple (A, B, C, xi, eta, zeta). [/repo/src/wulfric/cell/_niggli.py:376-383] *)
Record npar := NP { nA : R; nB : R; nC : R; nxi : R; neta : R; nzeta : R }.

(* numpy.sign, as the integer that enters the transformation matrix (dtype=int)
   [/repo/src/wulfric/cell/_niggli.py:171-179] *)
Definition sgn (x : R) : Z := if Rltb 0 x then 1%Z else if Rltb x 0 then (-1)%Z else 0%Z.

(* /repo/src/wulfric/cell/_niggli.py:388-396 the variables of the loop *)
Definition nstate := (bool * npar * zmat)%type.

(* _niggli.py:35-52 *)
Definition step_1 (p : npar) (t : zmat) (eps : R) : nstate :=
  let c := (cwt (nA p) CGt (nB p) eps
            || (cwt (nA p) CEq (nB p) eps && cwt (Rabs (nxi p)) CGt (Rabs (neta p)) eps))%bool in
  if c then (true, NP (nB p) (nA p) (nC p) (neta p) (nxi p) (nzeta p),
             zmul t (Zm 0 (-1) 0 (-1) 0 0 0 0 (-1)))
  else (false, p, t).

(* _niggli.py:55-72 *)
Definition step_2 (p : npar) (t : zmat) (eps : R) : nstate :=
  let c := (cwt (nB p) CGt (nC p) eps
            || (cwt (nB p) CEq (nC p) eps && cwt (Rabs (neta p)) CGt (Rabs (nzeta p)) eps))%bool in
  if c then (true, NP (nA p) (nC p) (nB p) (nxi p) (nzeta p) (neta p),
             zmul t (Zm (-1) 0 0 0 0 (-1) 0 (-1) 0))
  else (false, p, t).

(* /repo/src/wulfric/cell/_niggli.py:93-100, 141-148 *)
Definition zdiag (i j k : Z) := Zm i 0 0 0 j 0 0 0 k.

(* _niggli.py:75-104 *)
Definition step_3 (p : npar) (t : zmat) (eps : R) : nstate :=
  let c := cwt (nxi p * neta p * nzeta p) CGt 0 eps in
  if c then
    let i := if cwt (nxi p) CGt 0 eps then 1%Z else (-1)%Z in
    let j := if cwt (neta p) CGt 0 eps then 1%Z else (-1)%Z in
    let k := if cwt (nzeta p) CGt 0 eps then 1%Z else (-1)%Z in
    (true, NP (nA p) (nB p) (nC p) (Rabs (nxi p)) (Rabs (neta p)) (Rabs (nzeta p)),
     zmul t (zdiag i j k))
  else (false, p, t).

(* /repo/src/wulfric/cell/_niggli.py:112-130 *)
Inductive pvar := Pnone | Pi | Pj | Pk.

(* _niggli.py:107-152; the sign tests use the default tolerance, as in the code *)
Definition step_4 (p : npar) (t : zmat) (eps : R) : nstate :=
  let c := cwt (nxi p * neta p * nzeta p) CLe 0 eps in
  if c then
    let '(i, q) := if cwt_default (nxi p) CGt 0 then ((-1)%Z, Pnone)
                   else if negb (cwt_default (nxi p) CLt 0) then (1%Z, Pi) else (1%Z, Pnone) in
    let '(j, q) := if cwt_default (neta p) CGt 0 then ((-1)%Z, q)
                   else if negb (cwt_default (neta p) CLt 0) then (1%Z, Pj) else (1%Z, q) in
    let '(k, q) := if cwt_default (nzeta p) CGt 0 then ((-1)%Z, q)
                   else if negb (cwt_default (nzeta p) CLt 0) then (1%Z, Pk) else (1%Z, q) in
    let '(i, j, k) :=
      if (Z.ltb (i * j * k) 0)%Z then
        match q with
        | Pnone => (i, j, k)
        | Pi => ((-1)%Z, j, k)
        | Pj => (i, (-1)%Z, k)
        | Pk => (i, j, (-1)%Z)
        end
      else (i, j, k) in
    (true, NP (nA p) (nB p) (nC p) (- Rabs (nxi p)) (- Rabs (neta p)) (- Rabs (nzeta p)),
     zmul t (zdiag i j k))
  else (false, p, t).

(* _niggli.py:155-181 *)
Definition step_5 (p : npar) (t : zmat) (eps : R) : nstate :=
  let c := (cwt (Rabs (nxi p)) CGt (nB p) eps
            || (cwt (nxi p) CEq (nB p) eps && cwt (2 * neta p) CLt (nzeta p) eps)
            || (cwt (nxi p) CEq (- nB p) eps && cwt (nzeta p) CLt 0 eps))%bool in
  if c then
    let s := sgn (nxi p) in
    (true, NP (nA p) (nB p) (nB p + nC p - nxi p * IZR s)
              (nxi p - 2 * nB p * IZR s) (neta p - nzeta p * IZR s) (nzeta p),
     zmul t (Zm 1 0 0 0 1 (- s) 0 0 1))
  else (false, p, t).

(* _niggli.py:184-210 *)
Definition step_6 (p : npar) (t : zmat) (eps : R) : nstate :=
  let c := (cwt (Rabs (neta p)) CGt (nA p) eps
            || (cwt (neta p) CEq (nA p) eps && cwt (2 * nxi p) CLt (nzeta p) eps)
            || (cwt (neta p) CEq (- nA p) eps && cwt (nzeta p) CLt 0 eps))%bool in
  if c then
    let s := sgn (neta p) in
    (true, NP (nA p) (nB p) (nA p + nC p - neta p * IZR s)
              (nxi p - nzeta p * IZR s) (neta p - 2 * nA p * IZR s) (nzeta p),
     zmul t (Zm 1 0 (- s) 0 1 0 0 0 1))
  else (false, p, t).

(* _niggli.py:213-239 *)
Definition step_7 (p : npar) (t : zmat) (eps : R) : nstate :=
  let c := (cwt (Rabs (nzeta p)) CGt (nA p) eps
            || (cwt (nzeta p) CEq (nA p) eps && cwt (2 * nxi p) CLt (neta p) eps)
            || (cwt (nzeta p) CEq (- nA p) eps && cwt (neta p) CLt 0 eps))%bool in
  if c then
    let s := sgn (nzeta p) in
    (true, NP (nA p) (nA p + nB p - nzeta p * IZR s) (nC p)
              (nxi p - neta p * IZR s) (neta p) (nzeta p - 2 * nA p * IZR s),
     zmul t (Zm 1 (- s) 0 0 1 0 0 0 1))
  else (false, p, t).

(* _niggli.py:242-261 *)
Definition step_8 (p : npar) (t : zmat) (eps : R) : nstate :=
  let s := nxi p + neta p + nzeta p + nA p + nB p in
  let c := (cwt s CLt 0 eps
            || (cwt s CEq 0 eps && cwt (2 * (nA p + neta p) + nzeta p) CGt 0 eps))%bool in
  if c then
    (true, NP (nA p) (nB p) (nA p + nB p + nC p + nxi p + neta p + nzeta p)
              (2 * nB p + nxi p + nzeta p) (2 * nA p + neta p + nzeta p) (nzeta p),
     zmul t (Zm 1 0 1 0 1 1 0 0 1))
  else (false, p, t).

(* _niggli.py:388-429: the body of "while True"; the boolean is "continue"
   (false: the break at line 429 is reached). *)
Definition pass (p : npar) (t : zmat) (eps : R) : nstate :=
  let '(_, p, t) := step_1 p t eps in
  let '(c, p, t) := step_2 p t eps in
  if c then (true, p, t) else
  let '(_, p, t) := step_3 p t eps in
  let '(_, p, t) := step_4 p t eps in
  let '(c, p, t) := step_5 p t eps in
  if c then (true, p, t) else
  let '(c, p, t) := step_6 p t eps in
  if c then (true, p, t) else
  let '(c, p, t) := step_7 p t eps in
  if c then (true, p, t) else
  let '(c, p, t) := step_8 p t eps in
  if c then (true, p, t) else (false, p, t).

(* _niggli.py:385-429.  fuel only makes the recursion structural;
   running out of it is UnexpectedError (shown impossible in C13_fuel_never_exhausted).
   The result carries the number of passes made (iter_count). *)
Fixpoint niggli_loop (fuel : nat) (iter_count max_iterations : Z) (p : npar) (t : zmat) (eps : R)
  : res (npar * zmat * Z) :=
  if (max_iterations <? iter_count)%Z then Err NiggliReductionFailed
  else match fuel with
       | O => Err UnexpectedError
       | S fuel' =>
           let '(c, p', t') := pass p t eps in
           if c then niggli_loop fuel' (iter_count + 1) max_iterations p' t' eps
           else Ok (p', t', (iter_count + 1)%Z)
       end.

(* _niggli.py:373-383 *)
Definition gram_params (cell : mat) : npar :=
  let g := mmul cell (tr cell) in
  NP (vx (row1 g)) (vy (row2 g)) (vz (row3 g))
     (2 * vz (row2 g)) (2 * vz (row1 g)) (2 * vy (row1 g)).

(* _niggli.py:367-431 the wulfric implementation; also returns what is tracked *)
Definition niggli_run (cell : mat) (eps_relative : R) (max_iterations : Z)
  : res (npar * zmat * Z) :=
  do volume <- get_volume (VolCell cell);
  if Reqb volume 0 then Err ValueError else
  let eps := eps_relative * Rpower volume (1 / 3) in
  niggli_loop (S (Z.to_nat (max_iterations + 1))) 0 max_iterations (gram_params cell) zid eps.

(* _niggli.py:264-431; spglib = None when the package is not installed, otherwise the
   external niggli_reduce (not modelled: an arbitrary function). *)
Definition get_niggli (spglib : option (mat -> R -> res mat)) (cell : mat) (eps_relative : R)
           (implementation : string) (max_iterations : Z) : res mat :=
  let implementation := lower implementation in
  if String.eqb implementation "spglib" then
    match spglib with
    | None => Err ImportError
    | Some niggli_reduce => niggli_reduce cell eps_relative
    end
  else if negb (String.eqb implementation "wulfric") then Err ValueError
  else
    do (p, t, _) <- niggli_run cell eps_relative max_iterations;
    Ok (mmul (ofZ (ztr t)) cell).
