(** * Specification vocabulary: joining two messages (C133) *)
From Verif Require Import Py ClassifierModel.

(** A message that consists of the words of two messages. *)
Definition joins (s1 s2 s : stream) : Prop := forall w, w ∈ elems s <-> w ∈ elems s1 \/ w ∈ elems s2.

(** The words and numbers that decided a score: an evidence without its first two entries,
    which are about the score itself. *)
Definition clues {B} (ev : list (pyword * B)) : list pyword := (drop 2 ev).*1.

(** No word decided both scores, and together fewer than 150 words did. *)
Definition separate {B} (ev1 ev2 : list (pyword * B)) : Prop :=
  (forall w, w ∈ clues ev1 -> w ∉ clues ev2) /\ length (clues ev1) + length (clues ev2) < 150.
