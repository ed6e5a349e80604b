(** * C116: the layout of plain texts with bigrams *)
From Coq Require Import String.
From Verif Require Import Py NumModel ClassifierModel TrainSpec ScoreSpec RaiseModel TokenModel TokenSpec TokenCases MessageModel HeadModel HeadCases
  TreeModel TreeSpec TreeCases SeenSpec LayoutSpec SeqSpec SeqProofs.

Theorem C116_same_sequence_same_token_list :
  forall (U : unicode) (E : mailpkg) (o : topts) (a2b : codes -> res codes) order order' x h h' b b',
  parts_order_ok order -> parts_order_ok order' -> count_all o = false -> text_type x ->
  seen (mine_received o) h = seen (mine_received o) h' -> plain_body b -> plain_body b' -> same_sequence b b' ->
  let g := tokenize_message U E order o a2b (Part x h (Leaf (PBytes b))) in
  let g' := tokenize_message U E order' o a2b (Part x h' (Leaf (PBytes b'))) in
  g = g' \/ (g.2 <> None /\ g'.2 <> None).
Proof. exact sequence_tokens. Qed.
Print Assumptions C116_same_sequence_same_token_list.

(** With bigrams or without, for every storage. *)
Theorem C116_same_sequence_same_calls :
  forall (U : unicode) (E : mailpkg) (o : topts) (a2b : codes -> res codes) (A : num) (St : Type) (bk : backend St) it
    order order' x h h' b b' is_spam (ob : obj A St),
  parts_order_ok order -> parts_order_ok order' -> count_all o = false -> text_type x ->
  seen (mine_received o) h = seen (mine_received o) h' -> plain_body b -> plain_body b' -> same_sequence b b' ->
  let g := tokenize_message U E order o a2b (Part x h (Leaf (PBytes b))) in
  let g' := tokenize_message U E order' o a2b (Part x h' (Leaf (PBytes b'))) in
  (learn_gen bk it g is_spam ob).1 = (learn_gen bk it g' is_spam ob).1 /\
  (unlearn_gen bk it g is_spam ob).1 = (unlearn_gen bk it g' is_spam ob).1 /\
  same_result (learn_gen bk it g is_spam ob).2 (learn_gen bk it g' is_spam ob).2 /\
  same_result (unlearn_gen bk it g is_spam ob).2 (unlearn_gen bk it g' is_spam ob).2 /\
  same_result (score_gen bk it g ob).2 (score_gen bk it g' ob).2.
Proof. intros U E o a2b A St bk it order order' x h h' b b' is_spam ob. exact (sequence_calls U E o a2b bk it order order' x h h' b b' is_spam ob). Qed.
Print Assumptions C116_same_sequence_same_calls.

Example C116_same_sequence_case : plain_body wrapped /\ plain_body on_one_line /\ same_sequence wrapped on_one_line /\ wrapped <> on_one_line /\
  text_type (info "text/plain") /\
  (tokenize_message ascii plain (fun l => l) default_opts no_a2b (slip wrapped)).2 = None.
Proof. exact wrapped_case. Qed.

(** With bigrams the order of the words counts. *)
Theorem C116_order_of_words_with_bigrams_refuted :
  ~ forall (it : set_order) (b b' : codes), set_order_ok it -> plain_body b -> plain_body b' -> same_text b b' ->
    let learned b := (learn_gen mem_backend it (tokenize_message ascii plain (fun l => l) default_opts no_a2b (slip b)) true
                        (c_new true ∅ : obj RealModel.exact (gmap pyword winfo))).1 in
    same_training (learned b) (learned b').
Proof. exact order_counts_with_bigrams. Qed.
Print Assumptions C116_order_of_words_with_bigrams_refuted.
