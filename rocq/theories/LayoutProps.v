(** * Property theorem C116 (the layout of plain texts) *)
From Coq Require Import String.
From Verif Require Import Py NumModel ClassifierModel TrainSpec ScoreSpec StripModel RaiseModel TokenModel TokenSpec MessageModel HeadModel HeadCases
  ShelveApiProofs TreeModel TreeSpec TreeProofs TreeCases SeenSpec LayoutSpec LayoutProofs LayoutCases.

Theorem C116_tokens :
  forall (U : unicode) (E : mailpkg) (o : topts) (a2b : codes -> res codes) order order' m m',
  parts_order_ok order -> parts_order_ok order' -> count_all o = false ->
  seen (mine_received o) (part_headers m) = seen (mine_received o) (part_headers m') -> laid_out m m' ->
  let g := tokenize_message U E order o a2b m in
  let g' := tokenize_message U E order' o a2b m' in
  (g.2 = None <-> g'.2 = None) /\ (g.2 = None -> g'.2 = None -> forall w, w ∈ g.1 <-> w ∈ g'.1).
Proof. exact laid_tokens. Qed.
Print Assumptions C116_tokens.

Theorem C116_training :
  forall (U : unicode) (E : mailpkg) (o : topts) (a2b : codes -> res codes) (A : num) it order order' m m' is_spam
    (ob : obj A (gmap pyword winfo)),
  parts_order_ok order -> parts_order_ok order' -> set_order_ok it -> count_all o = false ->
  seen (mine_received o) (part_headers m) = seen (mine_received o) (part_headers m') -> laid_out m m' -> o_bigrams ob = Some false ->
  let r := learn_gen mem_backend it (tokenize_message U E order o a2b m) is_spam ob in
  let r' := learn_gen mem_backend it (tokenize_message U E order' o a2b m') is_spam ob in
  same_training r.1 r'.1 /\ is_ok r.2 = is_ok r'.2.
Proof. exact @laid_learn. Qed.
Print Assumptions C116_training.

Theorem C116_score :
  forall (U : unicode) (E : mailpkg) (o : topts) (a2b : codes -> res codes) (A : num), total_num A ->
  forall it0 it order order' m m' hist,
  parts_order_ok order -> parts_order_ok order' -> set_order_ok it0 -> set_order_ok it -> count_all o = false ->
  seen (mine_received o) (part_headers m) = seen (mine_received o) (part_headers m') -> laid_out m m' ->
  let ob := fst (run mem_backend it0 hist (c_new false ∅ : obj A (gmap pyword winfo))) in
  same_result (score_gen mem_backend it (tokenize_message U E order o a2b m) ob).2
              (score_gen mem_backend it (tokenize_message U E order' o a2b m') ob).2.
Proof. exact @laid_score. Qed.
Print Assumptions C116_score.

(** Without the condition on lines that begin uuencoded data this fails. *)
Theorem C116_every_wrapping_is_harmless_refuted :
  ~ forall b b', Forall (fun c => c ∉ str "<&=:") b -> Forall (fun c => c ∉ str "<&=:") b' -> same_text b b' ->
  ((tokenize_payload b).2 = None <-> (tokenize_payload b').2 = None).
Proof. exact wrapped_begin. Qed.
Print Assumptions C116_every_wrapping_is_harmless_refuted.

Example C116_case : laid_out (note_of narrow) (note_of wide) /\ note_of narrow <> note_of wide /\ parts_order_ok (@rev part) /\
  count_all default_opts = false /\ (tokenize_message ascii plain (fun l => l) default_opts no_a2b (note_of narrow)).2 = None /\
  (tokenize_message ascii plain (fun l => l) default_opts no_a2b (note_of narrow)).1 <>
  (tokenize_message ascii plain (@rev part) default_opts no_a2b (note_of wide)).1.
Proof.
  split_and!; [exact notes_laid_out| |exact reverse_order|done|by vm_compute..]. by intros [=].
Qed.
