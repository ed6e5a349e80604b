(** * The number of stars of the level header, for real arithmetic *)
From Coq Require Import Reals.
From Flocq Require Import Core.
From Verif Require Import Py NumModel RealModel.

(** [int(prob * 10)], message.py:422, as a count; int truncates *)
Definition stars (rnd : R -> R) (p : R) : nat := Z.to_nat (Ztrunc (nmul (rnum rnd) p (nZ (rnum rnd) 10))).
