(** * Specification vocabulary for scores with bigrams (C134) *)
From Verif Require Import Py ClassifierModel.

(** The token is the pair of two adjacent words of the list. *)
Definition pair_of (ws : list pyword) (w : pyword) : Prop :=
  exists (i : nat) x y, ws !! i = Some x /\ ws !! S i = Some y /\ w = bigram x y.

(** The word stands in the list before its last place. *)
Definition before_last (ws : list pyword) (w : pyword) : Prop :=
  exists (i : nat) y, ws !! i = Some w /\ ws !! S i = Some y.
