(** * Property theorems C124 (learning a message again and again) *)
From Coq Require Import Reals String.
From Verif Require Import Py NumModel ClassifierModel TrainSpec ScoreSpec RealModel RealProofs MessageModel FloatApiProofs ShelveApiProofs
  PadCases LeanCases PersistProofs PersistCases.

(** ** C124 *)
Theorem C124_message_with_a_word_new_to_the_other_side_is_recognised_in_the_end :
  forall it, set_order_ok it -> forall h ms s (b : bool) w, matched false h ms ->
  Forall (fun m => WNone ∉ m.1) ms -> one_type false (elems s) -> WNone ∉ elems s ->
  w ∈ elems s -> containing (negb b) w ms = 0%Z ->
  exists K, forall k, K <= k -> exists o' p ev,
    spamprob_evidence mem_backend it s
      (fst (run mem_backend it (h ++ replicate k (CLearn s b)) (c_new false ∅ : obj exact (gmap pyword winfo)))) = (o', Ok (p, ev)) /\
    (9 / 10 < (if b then p else 1 - p))%R /\ classify exact p = (if b then spam else ham).
Proof. exact persist. Qed.
Print Assumptions C124_message_with_a_word_new_to_the_other_side_is_recognised_in_the_end.

Theorem C124_message_of_words_in_all_messages_of_the_other_side_is_never_recognised :
  forall (M : machine) it, set_order_ok it -> forall h ms, matched false h ms -> forall s (b : bool) k,
  (Z.of_nat (length ms + k) < 2 ^ 48)%Z ->
  Forall (fun m => WNone ∉ m.1) ms -> one_type false (elems s) -> WNone ∉ elems s -> (0 < total (negb b) ms)%Z ->
  (forall w, w ∈ elems s -> containing (negb b) w ms = total (negb b) ms) ->
  exists o' p ev, spamprob_evidence mem_backend it s
      (fst (run mem_backend it (h ++ replicate k (CLearn s b)) (c_new false ∅ : obj (mnum M) (gmap pyword winfo)))) = (o', Ok (p, ev)) /\
    (if b then p <= 1 / 2 + 4 / 10 ^ 12 else 1 / 2 <= p + 4 / 10 ^ 12)%R /\
    classify (mnum M) p <> (if b then spam else ham).
Proof. intros M. exact never_spam. Qed.
Print Assumptions C124_message_of_words_in_all_messages_of_the_other_side_is_never_recognised.

Theorem C124_message_learned_often_enough_as_spam_is_classified_as_spam_refuted :
  forall (M : machine),
  ~ forall it h ms s, set_order_ok it -> matched false h ms -> Forall (fun m => WNone ∉ m.1) ms ->
    one_type false (elems s) -> WNone ∉ elems s -> elems s <> [] ->
    exists k : nat, (Z.of_nat (length ms + k) < 2 ^ 48)%Z /\ forall o' p ev, spamprob_evidence mem_backend it s
      (fst (run mem_backend it (h ++ replicate k (CLearn s true)) (c_new false ∅ : obj (mnum M) (gmap pyword winfo)))) = (o', Ok (p, ev)) ->
    classify (mnum M) p = spam.
Proof. intros M. exact persist_refuted. Qed.
Print Assumptions C124_message_learned_often_enough_as_spam_is_classified_as_spam_refuted.

Example C124_case : set_order_ok remove_dups /\ matched false two_sides two_msgs /\ Forall (fun m => WNone ∉ m.1) two_msgs /\
  one_type false (elems (SList dinner)) /\ WNone ∉ elems (SList dinner) /\
  (sw "dinner" ∈ elems (SList dinner) /\ containing (negb true) (sw "dinner") two_msgs = 0%Z) /\
  one_type false (elems (SList old_lunch)) /\ WNone ∉ elems (SList old_lunch) /\ (0 < total (negb true) two_msgs)%Z /\
  (forall w, w ∈ elems (SList old_lunch) -> containing (negb true) w two_msgs = total (negb true) two_msgs).
Proof.
  exact (conj dups_ok (conj two_matched (conj two_none (conj dinner_type (conj dinner_none (conj dinner_new
    (conj old_type (conj old_none (conj two_hams old_all))))))))).
Qed.
