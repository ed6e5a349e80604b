(** * Property theorem C136 (sections of a text that are not shown) *)
From Coq Require Import String.
From Verif Require Import Py NumModel ClassifierModel TrainSpec ScoreSpec RegexSpec StripModel StripSpec RaiseModel TokenModel TokenSpec MessageModel HeadModel HeadCases
  ShelveApiProofs TreeModel TreeSpec TreeProofs TreeCases SeenSpec LayoutSpec LayoutCases InkSpec InkProofs InkCases.

(** The same tokens in the same order, or the same exception after the same tokens *)
Theorem C136_text_with_invisible_sections : forall b t v u,
  Forall2 lower_of b t -> Forall2 lower_of u v -> inked t v -> simple t -> simple v ->
  tokenize_payload b = tokenize_payload u.
Proof. exact inked_payload. Qed.
Print Assumptions C136_text_with_invisible_sections.

Theorem C136_tokens :
  forall (U : unicode) (E : mailpkg) (o : topts) (a2b : codes -> res codes) order order' m m',
  parts_order_ok order -> parts_order_ok order' -> count_all o = false ->
  seen (mine_received o) (part_headers m) = seen (mine_received o) (part_headers m') -> look_alike m m' ->
  let g := tokenize_message U E order o a2b m in
  let g' := tokenize_message U E order' o a2b m' in
  (g.2 = None <-> g'.2 = None) /\ (g.2 = None -> g'.2 = None -> forall w, w ∈ g.1 <-> w ∈ g'.1).
Proof. exact alike_tokens. Qed.
Print Assumptions C136_tokens.

Theorem C136_training :
  forall (U : unicode) (E : mailpkg) (o : topts) (a2b : codes -> res codes) (A : num) it order order' m m' is_spam
    (ob : obj A (gmap pyword winfo)),
  parts_order_ok order -> parts_order_ok order' -> set_order_ok it -> count_all o = false ->
  seen (mine_received o) (part_headers m) = seen (mine_received o) (part_headers m') -> look_alike m m' -> o_bigrams ob = Some false ->
  let r := learn_gen mem_backend it (tokenize_message U E order o a2b m) is_spam ob in
  let r' := learn_gen mem_backend it (tokenize_message U E order' o a2b m') is_spam ob in
  same_training r.1 r'.1 /\ is_ok r.2 = is_ok r'.2.
Proof. exact @alike_learn. Qed.
Print Assumptions C136_training.

Theorem C136_score :
  forall (U : unicode) (E : mailpkg) (o : topts) (a2b : codes -> res codes) (A : num), total_num A ->
  forall it0 it order order' m m' hist,
  parts_order_ok order -> parts_order_ok order' -> set_order_ok it0 -> set_order_ok it -> count_all o = false ->
  seen (mine_received o) (part_headers m) = seen (mine_received o) (part_headers m') -> look_alike m m' ->
  let ob := fst (run mem_backend it0 hist (c_new false ∅ : obj A (gmap pyword winfo))) in
  same_result (score_gen mem_backend it (tokenize_message U E order o a2b m) ob).2
              (score_gen mem_backend it (tokenize_message U E order' o a2b m') ob).2.
Proof. exact @alike_score. Qed.
Print Assumptions C136_score.

(** Without the condition on URLs, entities and clues this fails. *)
Theorem C136_every_comment_is_invisible_refuted : ~ forall t v, inked t v -> plain_body v ->
  ((tokenize_payload t).2 = None <-> (tokenize_payload v).2 = None).
Proof. exact every_comment_invisible. Qed.
Print Assumptions C136_every_comment_is_invisible_refuted.

Example C136_case : shows inky sight /\ look_alike (note_of inky) (note_of (str "Today PLEASE call me")) /\
  (tokenize_payload inky).1 = WBytes <$> [str "please"; str "call"; str "today"] /\
  (tokenize_message ascii plain (fun l => l) default_opts no_a2b (note_of inky)).2 = None.
Proof. split_and!; [exact inky_shows|exact notes_alike|by vm_compute..]. Qed.
