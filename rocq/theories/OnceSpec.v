(** * Specification vocabulary for what training does to scores (C108 - C110) *)
From Verif Require Import Py ClassifierModel TrainSpec.

(** All the learned messages with the word have the label [b], and there are
    at least [k] of them. *)
Definition only_in (b : bool) (k : Z) (ms : list message) (w : pyword) : Prop :=
  (containing (negb b) w ms = 0 /\ k <= containing b w ms)%Z.

(** The word was never seen, or it was seen in the same fraction of the learned
    ham as of the learned spam. *)
Definition even_word (ms : list message) (w : pyword) : Prop :=
  (containing true w ms = 0 /\ containing false w ms = 0)%Z \/
  (0 < containing true w ms /\ 0 < containing false w ms /\
   containing true w ms * total false ms = containing false w ms * total true ms)%Z.
