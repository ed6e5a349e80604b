(** * Property theorem C117 (padding) *)
From Coq Require Import String.
From Verif Require Import Py NumModel ClassifierModel TrainSpec ScoreSpec OnceSpec RealModel RealProofs FloatApiProofs StripModel RaiseModel TokenModel MessageModel HeadModel HeadCases
  ShelveApiProofs TreeModel TreeSpec TreeProofs TreeCases SeenSpec SidedSpec PadProofs PadCases.

Theorem C117_weak_words :
  forall (A : num), total_num A -> forall it0 it1 it2 h s1 s2,
  set_order_ok it0 -> set_order_ok it1 -> set_order_ok it2 ->
  let o := fst (run mem_backend it0 h (c_new false ∅ : obj A (gmap pyword winfo))) in
  (forall w, ~ (w ∈ elems s1 <-> w ∈ elems s2) -> exists q, spam_probability o w = Ok q /\ strong q = false) ->
  same_result (snd (spamprob_evidence mem_backend it1 s1 o)) (snd (spamprob_evidence mem_backend it2 s2 o)).
Proof. exact @score_weak. Qed.
Print Assumptions C117_weak_words.

Theorem C117_even_words :
  forall (M : machine) it0 it1 it2 h ms s1 s2, set_order_ok it0 -> set_order_ok it1 -> set_order_ok it2 ->
  matched false h ms -> (Z.of_nat (length ms) < 2 ^ 48)%Z ->
  (forall w, ~ (w ∈ elems s1 <-> w ∈ elems s2) -> even_word ms w) ->
  let o := fst (run mem_backend it0 h (c_new false ∅ : obj (mnum M) (gmap pyword winfo))) in
  same_result (snd (spamprob_evidence mem_backend it1 s1 o)) (snd (spamprob_evidence mem_backend it2 s2 o)).
Proof. intros M. exact score_even. Qed.
Print Assumptions C117_even_words.

Example C117_case : set_order_ok remove_dups /\ matched false two_sides two_msgs /\
  (forall w, ~ (w ∈ elems (SList short) <-> w ∈ elems (SList padded)) -> even_word two_msgs w) /\
  sw "the" ∈ padded /\ sw "the" ∉ short.
Proof. split_and!; [exact dups_ok|exact two_matched|exact padded_even|apply (bool_decide_unpack _); by vm_compute..]. Qed.

Theorem C117_added_parts :
  forall (U : unicode) (E : mailpkg) (o : topts) (a2b : codes -> res codes) (A : num), total_num A -> sane A ->
  forall it it' order l order1 order2 x h ps (new : list part) qs,
  set_order_ok it -> set_order_ok it' -> parts_order_ok order1 -> parts_order_ok order2 ->
  (forall mb : part * bool, mb ∈ l -> (tokenize_message U E order o a2b mb.1).2 = None) ->
  (forall q, q ∈ qs <-> q ∈ ps \/ q ∈ new) ->
  let g := tokenize_message U E order1 o a2b (Part x h (Multi ps)) in
  let g' := tokenize_message U E order2 o a2b (Part x h (Multi qs)) in
  (tokenize_message U E order2 o a2b (Part x h (Multi qs))).2 = None ->
  (forall p q w, q ∈ new -> inside p q -> w ∈ (tokenize_message U E order1 o a2b (alone h p)).1 ->
     w ∈ g.1 \/ forall mb, mb ∈ l -> w ∉ (tokenize_message U E order o a2b mb.1).1) ->
  let ob := learn_all U E o a2b it order l (c_new false ∅ : obj A (gmap pyword winfo)) in
  same_result (score_gen mem_backend it' g ob).2 (score_gen mem_backend it' g' ob).2.
Proof. exact @added_parts. Qed.
Print Assumptions C117_added_parts.

Example C117_part_case :
  (forall mb, mb ∈ known -> (tokenize_message ascii plain (fun l => l) default_opts no_a2b mb.1).2 = None) /\
  (forall q, q ∈ offer ++ filler <-> q ∈ offer \/ q ∈ filler) /\
  (tokenize_message ascii plain (fun l => l) default_opts no_a2b (letter_with (offer ++ filler))).2 = None /\
  (forall p q w, q ∈ filler -> inside p q -> w ∈ (tokenize_message ascii plain (fun l => l) default_opts no_a2b (alone [] p)).1 ->
     w ∈ (tokenize_message ascii plain (fun l => l) default_opts no_a2b (letter_with offer)).1 \/
     forall mb, mb ∈ known -> w ∉ (tokenize_message ascii plain (fun l => l) default_opts no_a2b mb.1).1) /\
  WBytes (str "quixotic") ∈ (tokenize_message ascii plain (fun l => l) default_opts no_a2b (letter_with (offer ++ filler))).1 /\
  WBytes (str "quixotic") ∉ (tokenize_message ascii plain (fun l => l) default_opts no_a2b (letter_with offer)).1.
Proof. exact filler_case. Qed.

(** Where pairs of words count, an unknown word between two others breaks a pair. *)
Theorem C117_weak_words_between_pairs_refuted :
  ~ forall it h s1 s2, set_order_ok it ->
  let o := fst (run mem_backend it h (c_new true ∅ : obj exact (gmap pyword winfo))) in
  (forall w, ~ (w ∈ elems s1 <-> w ∈ elems s2) -> exists q, spam_probability o w = Ok q /\ strong q = false) ->
  same_result (snd (spamprob_evidence mem_backend it s1 o)) (snd (spamprob_evidence mem_backend it s2 o)).
Proof. exact padding_with_pairs. Qed.
Print Assumptions C117_weak_words_between_pairs_refuted.
