(* M_Float.v : compare_with_tolerance on IEEE 754 double precision numbers, with rounding to nearest even,
   infinities and nan (Flocq); the other files compute with exact reals. *)
From Verif Require Import Base M_Numerical.
From Flocq Require Import Core BinarySingleNaN.

(* python float *)
Definition double := binary_float 53 1024.
(* required by Flocq: precision is positive, and smaller than the largest exponent *)
Definition prec_pos : Prec_gt_0 53 := eq_refl.
Definition prec_small : Prec_lt_emax 53 1024 := eq_refl.
(* -, +, *, abs and < of python floats *)
Definition fsub : double -> double -> double := @Bminus 53 1024 prec_pos prec_small mode_NE.
Definition fadd : double -> double -> double := @Bplus 53 1024 prec_pos prec_small mode_NE.
Definition fmul : double -> double -> double := @Bmult 53 1024 prec_pos prec_small mode_NE.
Definition fabs : double -> double := @Babs 53 1024.
Definition flt : double -> double -> bool := @Bltb 53 1024.

(* /repo/src/wulfric/_numerical.py:95-106, after eps has been fixed *)
Definition fcwt (x : double) (c : cmp) (y eps : double) : bool :=
  match c with
  | CLt => flt x (fsub y eps)
  | CGt => flt y (fsub x eps)
  | CLe => negb (flt y (fsub x eps))
  | CGe => negb (flt x (fsub y eps))
  | CEq => negb (flt x (fsub y eps) || flt y (fsub x eps))
  | CNe => flt x (fsub y eps) || flt y (fsub x eps)
  end.
(* /repo/src/wulfric/_numerical.py:92-93 *)
Definition fresolve_eps (eps : option double) (rtol atol y : double) : double :=
  match eps with None => fadd atol (fmul rtol (fabs y)) | Some e => e end.
(* /repo/src/wulfric/_numerical.py:26, the doubles nearest to 1e-5 and 1e-8 *)
Definition frtol : double := @B754_finite 53 1024 false 5902958103587057 (-69) eq_refl.
(* /repo/src/wulfric/_numerical.py:26 *)
Definition fatol : double := @B754_finite 53 1024 false 6044629098073146 (-79) eq_refl.
(* /repo/src/wulfric/_numerical.py:26-110 compare_with_tolerance *)
Definition compare_floats (x : double) (condition : string) (y : double) (eps : option double) (rtol atol : double) : res bool :=
  let e := fresolve_eps eps rtol atol y in
  match parse_cmp condition with
  | Some c => Ok (fcwt x c y e)
  | None => Err ValueError
  end.

(* The next definitions are for results that do not overflow: a finite float is the real number it stands for. *)
(* rounding of one operation *)
Definition rnd64 (x : R) : R := round radix2 (FLT_exp (-1074) 53) ZnearestE x.
(* C fmod(y, 1), which is exact *)
Definition fmod1 (y : R) : R := (y - IZR (Ztrunc y))%R.
(* numpy y % 1: fmod, and 1 is added when the result is negative [/repo/src/wulfric/crystal/_primitive.py:75, 78] *)
Definition fremainder1 (y : R) : R := let r := fmod1 y in if Rltb r 0 then rnd64 (r + 1) else r.
(* np.round(x, decimals=8): numpy multiplies by 1e8, rounds to an integer, divides by 1e8
   [/repo/src/wulfric/crystal/_primitive.py:72] *)
Definition fround8 (x : R) : R := rnd64 (IZR (ZnearestE (rnd64 (x * 100000000))) / 100000000).
(* /repo/src/wulfric/crystal/_primitive.py:72-78 *)
Definition fposition (x : R) : R := fremainder1 (fremainder1 (fround8 x)).
