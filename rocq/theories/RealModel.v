(** * Real arithmetic with rounding as an instance of [num].
    Every operation of the code is the real operation followed by [rnd];
    [rnd = fun x => x] is exact arithmetic.  Negation, absolute value and frexp
    are exact in floating point.  math.frexp (basic.py:244, 247) returns the
    mantissa in [1/2, 1) and the exponent; Flocq's [mag] is that exponent. *)
From Coq Require Import Reals Lra.
From Flocq Require Import Core.
From Verif Require Import Py NumModel.
Local Open Scope R_scope.

(** The comparisons at basic.py:130, 243, 246, 539, 570 *)
Definition rltb (x y : R) : bool := if Rlt_dec x y then true else false.
(** math.frexp tests for zero, basic.py:244, 247 *)
Definition reqb (x y : R) : bool := if Req_EM_T x y then true else false.

(** math.frexp, basic.py:244, 247 *)
Definition rfrexp (x : R) : R * Z :=
  if reqb x 0 then (0, 0%Z)
  else (x * bpow radix2 (- mag radix2 x), (mag radix2 x : Z)).

(** Floating-point operations at basic.py:109-130, 234-277, 375-407 *)
Definition rnum (rnd : R -> R) : num := {|
  F := R;
  nZ z := rnd (IZR z);
  nQ p q := rnd (IZR p / IZR (Zpos q));
  nadd x y := rnd (x + y);
  nsub x y := rnd (x - y);
  nmul x y := rnd (x * y);
  ndiv x y := rnd (x / y);
  ndivZ a b := rnd (IZR a / IZR b);
  nneg x := - x;
  nabs x := Rabs x;
  nlt := rltb;
  neq := reqb;
  nexp x := rnd (exp x);
  nlog x := rnd (ln x);
  nfrexp := rfrexp
|}.

(** Exact arithmetic (for the operations at basic.py:109-130, 234-277, 375-407) *)
Definition exact : num := rnum (fun x => x).

(** The rounding functions considered: monotone, idempotent, and exact on the
    small integers used as constants.  Rounding to nearest even in binary64
    without upper exponent bound satisfies this (RealProofs.v).
    (for the operations at basic.py:109-130, 234-277, 375-407) *)
Record rounding (rnd : R -> R) : Prop := {
  rnd_mono : forall x y, x <= y -> rnd x <= rnd y;
  rnd_idem : forall x, rnd (rnd x) = rnd x;
  rnd_0 : rnd 0 = 0;
  rnd_1 : rnd 1 = 1;
  rnd_m1 : rnd (-1) = -1;
  rnd_2 : rnd 2 = 2;
  rnd_m2 : rnd (-2) = -2;
  rnd_half : rnd (1 / 2) = 1 / 2
}.

(** binary64, rounding to nearest even, without upper exponent bound
    (for the operations at basic.py:109-130, 234-277, 375-407) *)
Definition b64 : R -> R := round radix2 (FLT_exp (-1074) 53) ZnearestE.

(** The floating-point arithmetic of a machine.  The operations of the language
    round to nearest even in binary64 as long as the exact result is at most
    2^1023 in size; nothing is assumed about their result otherwise (overflow).
    math.log (basic.py:49, 252, 253) and math.exp (basic.py:121) come from the
    C library and are not correctly rounded: their error is assumed to be at
    most one unit in the last place, 2^-52 relative, plus the smallest
    subnormal number for math.exp.
    (for the operations at basic.py:109-130, 234-277, 375-407) *)
Class machine := Machine {
  mrnd : R -> R;
  mlog : R -> R;
  mexp : R -> R;
  mrnd_ok : forall x, Rabs x <= bpow radix2 1023 -> mrnd x = b64 x;
  mlog_ok : forall x, b64 x = x -> 0 < x ->
    Rabs (mlog x - ln x) <= bpow radix2 (-52) * Rabs (ln x);
  mexp_ok : forall x, b64 x = x -> x <= 0 ->
    0 <= mexp x /\ Rabs (mexp x - exp x) <= bpow radix2 (-52) * exp x + bpow radix2 (-1074)
}.

(** The arithmetic of that machine, basic.py:109-130, 234-277, 375-407 *)
Definition mnum (M : machine) : num := {|
  F := R;
  nZ z := mrnd (IZR z);
  nQ p q := mrnd (IZR p / IZR (Zpos q));
  nadd x y := mrnd (x + y);
  nsub x y := mrnd (x - y);
  nmul x y := mrnd (x * y);
  ndiv x y := mrnd (x / y);
  ndivZ a b := mrnd (IZR a / IZR b);
  nneg x := - x;
  nabs x := Rabs x;
  nlt := rltb;
  neq := reqb;
  nexp := mexp;
  nlog := mlog;
  nfrexp := rfrexp
|}.
