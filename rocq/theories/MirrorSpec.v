(** * Messages with exchanged labels (C130) *)
From Coq Require Import Reals.
From Verif Require Import Py ClassifierModel TrainSpec RealSpec SwaySpec.

(** The same messages, ham learned as spam and spam as ham. *)
Definition mirrored (ms : list message) : list message := (fun m => (m.1, negb m.2)) <$> ms.

(** No word has a probability within 10^-14 of the threshold for clues. *)
Definition clear_cut (ms : list message) (ws : list pyword) : Prop :=
  forall w, w ∈ ws -> (Rabs (formula ms w - 1 / 2) < 1 / 10 - 1 / 10 ^ 14 \/
                       1 / 10 + 1 / 10 ^ 14 <= Rabs (formula ms w - 1 / 2))%R.

(** At most 150 different words are clues. *)
Definition few_clues (ms : list message) (ws : list pyword) : Prop :=
  forall l, NoDup l -> (forall w, w ∈ l -> w ∈ ws /\ (1 / 10 <= Rabs (formula ms w - 1 / 2))%R) -> length l <= 150.
