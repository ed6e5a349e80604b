(** * Specification vocabulary for recognising learned messages with bigrams (C134) *)
From Verif Require Import Py ClassifierModel TrainSpec ScoreSpec.

(** The word does not have the form of a pair of words. *)
Definition plain_word (w : pyword) : Prop := forall x y, w <> bigram x y.

(** No learned message with the label opposite to [b] has any of the words or
    of the pairs of adjacent words of the message. *)
Definition nothing_against (b : bool) (ms : list message) (s : stream) : Prop :=
  forall w, candidate true (elems s) w -> containing (negb b) w ms = 0%Z.
