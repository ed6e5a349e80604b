(** * Words that are at least as frequent on one side (C123) *)
From Verif Require Import Py ClassifierModel TrainSpec.
Local Open Scope Z_scope.

(** The word is in at least as large a part of the learned messages labelled
    [b] as of the others; a word that was never seen is. *)
Definition leans (b : bool) (ms : list message) (w : pyword) : Prop :=
  containing (negb b) w ms * Z.max 1 (total b ms) <= containing b w ms * Z.max 1 (total (negb b) ms).
