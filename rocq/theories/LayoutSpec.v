(** * Specification: texts of which only the layout differs *)
From Coq Require Import String.
From Verif Require Import Py RegexSpec StripSpec TokenModel TokenSpec HeadModel TreeModel TreeSpec.

(** A text without the characters of markup and URLs, and without a line that looks like the
    beginning of uuencoded data. *)
Definition plain_body (b : codes) : Prop :=
  Forall (fun c => c ∉ str "<&=:") b /\ forall t, Forall2 lower_of b t -> ~ occurs uu_begin t.

(** Two texts with the same words: letter case, blanks and line ends, the order of the words and
    how often each occurs may differ. *)
Definition same_text (b b' : codes) : Prop :=
  exists t t' ws ws', Forall2 lower_of b t /\ Forall2 lower_of b' t' /\ words t ws /\ words t' ws' /\ forall w, w ∈ ws <-> w ∈ ws'.

(** Two messages that are alike up to the layout of their plain texts. *)
Definition same_payload (p p' : payload) : Prop :=
  p = p' \/ exists b b', p = PBytes b /\ p' = PBytes b' /\ plain_body b /\ plain_body b' /\ same_text b b'.
Inductive laid_out : part -> part -> Prop :=
  | laid_leaf x h h' p p' : (text_type x -> same_payload p p') -> laid_out (Part x h (Leaf p)) (Part x h' (Leaf p'))
  | laid_multi x h h' ps qs :
      (forall p, p ∈ ps -> exists q, q ∈ qs /\ laid_out p q) ->
      (forall q, q ∈ qs -> exists p, p ∈ ps /\ laid_out p q) ->
      laid_out (Part x h (Multi ps)) (Part x h' (Multi qs)).
