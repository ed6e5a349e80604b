(** * Specification of edge cases of earlier properties *)
From Verif Require Import Py.

(** The text with each carriage return before a newline taken away. *)
Fixpoint no_cr (s : codes) : codes :=
  match s with
  | 13%N :: ((10%N :: _) as r) => no_cr r
  | c :: r => c :: no_cr r
  | [] => []
  end.

(** Each newline has a carriage return before it. *)
Definition no_bare_newline (s : codes) : Prop := forall l1 l2, s = l1 ++ 10%N :: l2 -> exists l0, l1 = l0 ++ [13%N].
