(** * The probability of a word in terms of the learned messages (C118 to C120) *)
From Coq Require Import Reals.
From Verif Require Import Py NumModel ClassifierModel TrainSpec RealSpec.
Local Open Scope R_scope.

(** Robinson's probability of a word, from the numbers of learned messages with
    the word; one half if there are none. *)
Definition formula (ms : list message) (w : pyword) : R :=
  if bool_decide (containing true w ms + containing false w ms = 0)%Z then 1 / 2
  else robinson (containing true w ms) (total true ms) (containing false w ms) (total false ms).

(** The messages k times over *)
Fixpoint times (k : nat) (ms : list message) : list message :=
  match k with O => [] | S k => ms ++ times k ms end.
