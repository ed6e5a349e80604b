(** * Specification vocabulary for messages with a single text (C146) *)
From Coq Require Import String.
From Verif Require Import Py StripModel TokenModel MessageModel HeadModel TreeModel TreeSpec.

(** The message has n text parts, itself and enclosed ones included. *)
Inductive texts : part -> nat -> Prop :=
  | texts_leaf x h b n : (text_type x -> n = 1) -> (~ text_type x -> n = 0) -> texts (Part x h (Leaf b)) n
  | texts_multi x h ps n k : (text_type x -> n = 1) -> (~ text_type x -> n = 0) -> texts_all ps k ->
      texts (Part x h (Multi ps)) (n + k)
with texts_all : list part -> nat -> Prop :=
  | texts_nil : texts_all [] 0
  | texts_cons p ps n k : texts p n -> texts_all ps k -> texts_all (p :: ps) (n + k).

Scheme texts_mut := Induction for texts Sort Prop
with texts_all_mut := Induction for texts_all Sort Prop.
