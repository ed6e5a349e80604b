(** * Specification: texts with the same sequence of words (C116) *)
From Verif Require Import Py RegexSpec StripSpec TokenModel TokenSpec.

(** Letter case, blanks and line ends may differ. *)
Definition same_sequence (b b' : codes) : Prop :=
  exists t t' ws, Forall2 lower_of b t /\ Forall2 lower_of b' t' /\ words t ws /\ words t' ws.
