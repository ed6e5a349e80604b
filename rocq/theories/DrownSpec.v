(** * Specification vocabulary: padding a message with strong words (C132) *)
From Verif Require Import Py NumModel ClassifierModel TrainSpec ScoreSpec OnceSpec.

(** 150 or more different words of the padding are strong, and stronger than every word of the
    message that is not in the padding; [prob] is the probability of a word. *)
Definition outweighs {A : num} (prob : pyword -> res (F A)) (pad message : list pyword) : Prop :=
  exists ws : list pyword, NoDup ws /\ 150 <= length ws /\
  forall v, v ∈ ws -> v ∈ pad /\ exists p, prob v = Ok p /\ strong p = true /\
    forall w q, w ∈ message -> w ∉ pad -> prob w = Ok q -> nlt A (strength q) (strength p) = true.

(** The words of a padded message: those of the padding and those of the message. *)
Definition padded_with (pad message result : list pyword) : Prop :=
  forall w, w ∈ result <-> w ∈ pad \/ w ∈ message.

(** 150 or more different words, each of them in at least [k] learned messages with the label
    [b] and in none with the other label. *)
Definition good_words (b : bool) (k : Z) (ms : list message) (pad : list pyword) : Prop :=
  (exists ws, NoDup ws /\ 150 <= length ws /\ forall w, w ∈ ws -> w ∈ pad) /\
  forall w, w ∈ pad -> only_in b k ms w.

(** Each of the words is in fewer than [k] learned messages. *)
Definition rarer_than (k : Z) (ms : list message) (ws : list pyword) : Prop :=
  forall w, w ∈ ws -> (containing true w ms + containing false w ms < k)%Z.
