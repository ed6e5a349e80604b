(** * Property theorems C132 (padding a message with strong words) *)
From Coq Require Import Reals.
From Verif Require Import Py NumModel ClassifierModel TrainSpec ScoreSpec RealModel MachineProofs MessageModel FloatApiProofs ShelveApiProofs
  OnceSpec DrownSpec DrownProofs DrownCases.

(** ** C132 *)
Theorem C132_150_stronger_words_decide_alone :
  forall (A : num), total_num A -> forall it0 it1 it2 h pad msg s r,
  set_order_ok it0 -> set_order_ok it1 -> set_order_ok it2 ->
  let o := fst (run mem_backend it0 h (c_new false ∅ : obj A (gmap pyword winfo))) in
  padded_with (elems pad) (elems msg) (elems s) -> outweighs (spam_probability o) (elems pad) (elems msg) ->
  snd (spamprob_evidence mem_backend it2 s o) = Ok r ->
  snd (spamprob_evidence mem_backend it1 pad o) = Ok r.
Proof. exact @score_drown. Qed.
Print Assumptions C132_150_stronger_words_decide_alone.

Theorem C132_good_words_turn_any_message :
  forall (M : machine) it, set_order_ok it -> forall h ms, matched false h ms -> (Z.of_nat (length h) < 2 ^ 48)%Z ->
  forall (b : bool) (k : Z) (pad msg s : stream), Forall (fun m => WNone ∉ m.1) ms -> one_type false (elems s) ->
  (1 <= k <= 100000)%Z -> good_words b k ms (elems pad) -> rarer_than k ms (elems msg) ->
  padded_with (elems pad) (elems msg) (elems s) ->
  let o := fst (run mem_backend it h (c_new false ∅ : obj (mnum M) (gmap pyword winfo))) in
  exists o1 o2 p ev, spamprob_evidence mem_backend it pad o = (o1, Ok (p, ev)) /\
    spamprob_evidence mem_backend it s o = (o2, Ok (p, ev)) /\
    (9 / 10 < if b then p else 1 - p)%R /\ classify (mnum M) p = (if b then spam else ham).
Proof. intros M. exact padding_takes_over. Qed.
Print Assumptions C132_good_words_turn_any_message.

Example C132_case : set_order_ok remove_dups /\ matched false drown_calls drown_ms /\ (Z.of_nat (length drown_calls) < 2 ^ 48)%Z /\
  Forall (fun m => WNone ∉ m.1) drown_ms /\ one_type false (elems (SList (spam_words ++ ham_words))) /\
  good_words false 2 drown_ms ham_words /\ rarer_than 2 drown_ms spam_words /\
  padded_with ham_words spam_words (spam_words ++ ham_words) /\
  forall M : machine, outweighs (spam_probability (fst (run mem_backend remove_dups drown_calls (c_new false ∅ : obj (mnum M) (gmap pyword winfo)))))
    ham_words spam_words.
Proof.
  split_and!; [exact dups_ok|exact drown_matched|exact drown_few|exact drown_none|exact drown_type|exact drown_good|exact drown_rare
    |exact drown_padded|intros M; exact drown_outweighs].
Qed.

Theorem C132_spam_stays_spam_with_further_words_refuted :
  forall (M : machine), exists h s t o1 o2 p1 p2 ev1 ev2, (forall w, w ∈ elems s -> w ∈ elems t) /\
  spamprob_evidence mem_backend remove_dups s (fst (run mem_backend remove_dups h (c_new false ∅ : obj (mnum M) (gmap pyword winfo)))) = (o1, Ok (p1, ev1)) /\
  spamprob_evidence mem_backend remove_dups t (fst (run mem_backend remove_dups h (c_new false ∅ : obj (mnum M) (gmap pyword winfo)))) = (o2, Ok (p2, ev2)) /\
  classify (mnum M) p1 = spam /\ classify (mnum M) p2 = ham.
Proof. intros M. exact drowned. Qed.
Print Assumptions C132_spam_stays_spam_with_further_words_refuted.
