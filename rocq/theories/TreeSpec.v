(** * Specification of messages with parts *)
From Coq Require Import String.
From Verif Require Import Py StripModel TokenModel MessageModel HeadModel TreeModel.

(** p is the message m or one of the parts inside it. *)
Inductive inside : part -> part -> Prop :=
  | inside_self p : inside p p
  | inside_sub p q x h ps : q ∈ ps -> inside p q -> inside p (Part x h (Multi ps)).

(** A text part: its content type begins with text/. *)
Definition text_type (x : mpart) : Prop :=
  pt_type x = str "text" \/ exists s, pt_type x = str "text/" ++ s.

(** Two messages of which the tokenizer should not see a difference: the nodes
    have the same types, charsets and file names; undivided text parts have the same
    contents; each part of one has a counterpart in the other.  Nothing is said
    about the contents of other parts, about the headers of parts, about the order of
    parts and about how often a part occurs. *)
Inductive alike : part -> part -> Prop :=
  | alike_leaf x h h' b b' : (text_type x -> b = b') -> alike (Part x h (Leaf b)) (Part x h' (Leaf b'))
  | alike_multi x h h' ps qs :
      (forall p, p ∈ ps -> exists q, q ∈ qs /\ alike p q) ->
      (forall q, q ∈ qs -> exists p, p ∈ ps /\ alike p q) ->
      alike (Part x h (Multi ps)) (Part x h' (Multi qs)).

(** An iteration order of sets of parts. *)
Definition parts_order_ok (order : list part -> list part) : Prop := forall l, order l ≡ₚ l.

(** The part p as a message by itself, under the headers h. *)
Definition alone (h : headers) (p : part) : part :=
  match p with
  | Part x _ (Leaf b) => Part x h (Leaf b)
  | Part x _ (Multi _) => Part x h (Multi [])
  end.
