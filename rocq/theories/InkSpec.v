(** * Specification: sections of a text that a mail reader does not show *)
From Coq Require Import String.
From Verif Require Import Py RegexSpec StripSpec TokenModel TokenSpec HeadModel TreeModel TreeSpec LayoutSpec.
Local Open Scope N_scope.

(** A whole style section: anything up to the first </style>. *)
Definition hidden_style (s : codes) : Prop :=
  exists w c, s = w ++ c ++ str "</style>" /\ style_start [] w [] /\ ~ exists a b, c = a ++ str "</style>" ++ b.
(** A whole comment without a further angle bracket. *)
Definition hidden_comment (s : codes) : Prop :=
  exists w c e, s = 60 :: w ++ c ++ e /\ comment_start [] (60 :: w) [] /\ 60 ∉ w /\ 60 ∉ c /\
    (~ exists a b, c = a ++ str "-->" ++ b) /\ comment_end [] e [].
(** A whole noframes section without a further angle bracket. *)
Definition hidden_noframes (s : codes) : Prop :=
  exists w c e, s = w ++ c ++ e /\ noframes_start [] w [] /\ 60 ∉ c /\ noframes_end [] e [].
Definition hidden (s : codes) : Prop := hidden_style s \/ hidden_comment s \/ hidden_noframes s.

(** [inked t v]: the text t is the text v with such sections put in anywhere, also inside of
    words; v has no angle bracket. *)
Inductive inked : codes -> codes -> Prop :=
  | ink_end : inked [] []
  | ink_char c t v : c <> 60 -> inked t v -> inked (c :: t) (c :: v)
  | ink_section s t v : hidden s -> inked t v -> inked (s ++ t) v.

(** No numeric entity, no beginning of uuencoded data, no URL, nothing that looks like a virus. *)
Definition simple (t : codes) : Prop :=
  ~ occurs numeric_entity t /\ ~ occurs uu_begin t /\ ~ occurs url_here t /\ ~ occurs virus_clue t.

(** [shows b v]: of the text b, in which letter case does not matter, the reader sees the plain text v. *)
Definition shows (b v : codes) : Prop :=
  exists t, Forall2 lower_of b t /\ inked t v /\ simple t /\ plain_body v.

(** Two messages that show the same words. *)
Definition same_sight (p p' : payload) : Prop :=
  p = p' \/ exists b b' v v', p = PBytes b /\ p' = PBytes b' /\ shows b v /\ shows b' v' /\ same_text v v'.
Inductive look_alike : part -> part -> Prop :=
  | alike_leaf x h h' p p' : (text_type x -> same_sight p p') -> look_alike (Part x h (Leaf p)) (Part x h' (Leaf p'))
  | alike_multi x h h' ps qs :
      (forall p, p ∈ ps -> exists q, q ∈ qs /\ look_alike p q) ->
      (forall q, q ∈ qs -> exists p, p ∈ ps /\ look_alike p q) ->
      look_alike (Part x h (Multi ps)) (Part x h' (Multi qs)).
