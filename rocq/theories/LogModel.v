(** * The binary logarithm of a count in floating point *)
From Coq Require Import Reals.
From Flocq Require Import Core.
From Verif Require Import Py NumModel RealModel.

(** tokenizer.py:1049-1050 (the same function as strippers.py:93-94), log2 *)
Definition flog2 (A : num) (n : nat) : F A := ndiv A (nlog A (nZ A (Z.of_nat n))) (nlog A (nZ A 2)).

(** round(log2(n)), tokenizer.py:1277, 1353, 1494; round goes to the nearest integer, half to even *)
Definition float_round_log2 (M : machine) (n : nat) : Z := ZnearestE (flog2 (mnum M) n).

(** int(log2(n)), tokenizer.py:1450; int truncates *)
Definition float_int_log2 (M : machine) (n : nat) : Z := Ztrunc (flog2 (mnum M) n).
