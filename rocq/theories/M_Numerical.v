(* M_Numerical.v : model of /repo/src/wulfric/_numerical.py *)
From Verif Require Import Base.
Open Scope R_scope.

(* The six condition strings of _numerical.py:91-105. *)
Inductive cmp := CLt | CGt | CLe | CGe | CEq | CNe.

(* /repo/src/wulfric/_numerical.py:95-110 *)
Definition parse_cmp (s : string) : option cmp :=
  if String.eqb s "<" then Some CLt
  else if String.eqb s ">" then Some CGt
  else if String.eqb s "<=" then Some CLe
  else if String.eqb s ">=" then Some CGe
  else if String.eqb s "==" then Some CEq
  else if String.eqb s "!=" then Some CNe
  else None.

(* _numerical.py:93-104, after eps has been fixed. *)
Definition cwt (x : R) (c : cmp) (y eps : R) : bool :=
  match c with
  | CLt => Rltb x (y - eps)
  | CGt => Rltb y (x - eps)
  | CLe => negb (Rltb y (x - eps))
  | CGe => negb (Rltb x (y - eps))
  | CEq => negb (Rltb x (y - eps) || Rltb y (x - eps))
  | CNe => Rltb x (y - eps) || Rltb y (x - eps)
  end.

(* _numerical.py:26 default arguments *)
Definition default_rtol : R := / 100000.
(* /repo/src/wulfric/_numerical.py:26 *)
Definition default_atol : R := / 100000000.

(* _numerical.py:90-91 *)
Definition resolve_eps (eps : option R) (rtol atol y : R) : R :=
  match eps with None => atol + rtol * Rabs y | Some e => e end.

(* _numerical.py:26-110 compare_with_tolerance *)
Definition compare_with_tolerance (x : R) (condition : string) (y : R)
           (eps : option R) (rtol atol : R) : res bool :=
  let e := resolve_eps eps rtol atol y in
  match parse_cmp condition with
  | Some c => Ok (cwt x c y e)
  | None => Err ValueError
  end.

(* The call with eps=None and the default rtol, atol, as used in the package.
   [/repo/src/wulfric/_numerical.py:92-93 (called so at cell/_niggli.py:115-129)] *)
Definition cwt_default (x : R) (c : cmp) (y : R) : bool :=
  cwt x c y (default_atol + default_rtol * Rabs y).
