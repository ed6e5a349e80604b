(** * Property theorems C129 (how many tokens a text has) *)
From Coq Require Import String.
From Verif Require Import Py NumModel ClassifierModel TokenModel MessageModel HeadModel HeadSpec TrainSpec GrowSpec GrowProofs GrowCases.
Local Open Scope nat_scope.

(** ** C129 *)
Theorem C129_number_and_size_of_the_tokens_of_a_text :
  forall (b : codes) (ts : list pyword), tokenize_payload b = (ts, None) ->
  7 * length ts <= 8 * length b /\ total_size ts <= 10 * length b.
Proof. exact payload_size. Qed.
Print Assumptions C129_number_and_size_of_the_tokens_of_a_text.

Theorem C129_number_of_records_of_a_classifier :
  forall (A : num) (it : set_order) (bigrams : bool) (h : list call) (ms : list message),
  set_order_ok it -> matched bigrams h ms ->
  size (o_store (fst (run mem_backend it h (c_new bigrams ∅ : obj A (gmap pyword winfo))))) <= all_words ms.
Proof. exact records_bound. Qed.
Print Assumptions C129_number_of_records_of_a_classifier.

Theorem C129_number_of_records_after_learning_texts :
  forall (A : num) (it : set_order) (texts : list (codes * bool)) (tss : list (list pyword)),
  set_order_ok it -> Forall2 (fun b ts => tokenize_payload b.1 = (ts, None)) texts tss ->
  7 * size (o_store (fst (run mem_backend it (zip_with (fun b ts => CLearn (SIter ts) b.2) texts tss)
                            (c_new false ∅ : obj A (gmap pyword winfo)))))
    <= 8 * sum_list_with (fun b => length b.1) texts.
Proof. exact learned_texts. Qed.
Print Assumptions C129_number_of_records_after_learning_texts.

Theorem C129_size_of_the_tokens_of_a_received_header_is_linear_refuted :
  ~ exists c : nat, forall U s ts, sane U ->
    received_tokens U (fetch (HText s)) = (ts, None) -> total_size ts <= c * length s.
Proof. exact received_linear_refuted. Qed.
Print Assumptions C129_size_of_the_tokens_of_a_received_header_is_linear_refuted.

Example C129_case : exists ts, tokenize_payload sample = (ts, None) /\
  length sample = 62 /\ length ts = 12 /\ total_size ts = 82.
Proof. exact sample_case. Qed.
