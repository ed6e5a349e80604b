(** * Arithmetic.
    The code computes with Python ints and floats.  The model is parameterised
    by the arithmetic, so that structural theorems hold for every arithmetic
    and numeric theorems can be stated for real numbers with rounding. *)
From Verif Require Import Py.

(** The operations used at basic.py:49, 86-130, 234-277, 375-407, 579-586 *)
Record num := MkNum {
  F : Type;
  nZ : Z -> F;                     (* int converted to float *)
  nQ : Z -> positive -> F;         (* a decimal literal p/q *)
  nadd : F -> F -> F;
  nsub : F -> F -> F;
  nmul : F -> F -> F;
  ndiv : F -> F -> F;              (* float division, divisor non-zero *)
  ndivZ : Z -> Z -> F;             (* int / int, divisor non-zero *)
  nneg : F -> F;
  nabs : F -> F;
  nlt : F -> F -> bool;            (* Python [<] *)
  neq : F -> F -> bool;            (* Python [==] *)
  nexp : F -> F;                   (* math.exp *)
  nlog : F -> F;                   (* math.log on positive arguments *)
  nfrexp : F -> F * Z              (* math.frexp *)
}.

(** Python [a >= b], [a <= b] (no NaN) (basic.py:539, 570) *)
Definition nge (A : num) (x y : F A) : bool := negb (nlt A x y).
(** The other direction, basic.py:130 *)
Definition nle (A : num) (x y : F A) : bool := negb (nlt A y x).

(** The order of the arithmetic is a decidable total order.
    What the comparisons at basic.py:130, 539, 570 need *)
Record total_num (A : num) : Prop := {
  neq_spec : forall x y, neq A x y = true <-> x = y;
  nlt_irrefl : forall x, nlt A x x = false;
  nlt_trans : forall x y z, nlt A x y = true -> nlt A y z = true -> nlt A x z = true;
  nlt_total : forall x y, nlt A x y = false -> nlt A y x = false -> x = y
}.
