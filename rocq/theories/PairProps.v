(** * Property theorems C134 (recognising learned messages with bigrams) *)
From Coq Require Import Reals String.
From Verif Require Import Py NumModel ClassifierModel TrainSpec ScoreSpec RealModel RealSpec MessageModel FloatApiProofs
  MessageCases TrainProps OnceSpec PairSpec PairProofs PairCases.

(** ** C134 *)
Theorem C134_three_learned_words_decide_with_bigrams :
  forall (M : machine) (it : set_order) (h : list call) (ms : list message) (s : stream) (b : bool) w1 w2 w3,
  set_order_ok it -> matched true h ms -> (Z.of_nat (length h) < 2 ^ 48)%Z ->
  Forall (fun m => WNone ∉ m.1) ms -> one_type true (elems s) -> nothing_against b ms s ->
  (forall w, w ∈ [w1; w2; w3] -> w ∈ elems s /\ plain_word w /\ (1 <= containing b w ms)%Z) ->
  NoDup [w1; w2; w3] ->
  exists o' p ev, spamprob_evidence mem_backend it s
      (fst (run mem_backend it h (c_new true ∅ : mem_obj (mnum M)))) = (o', Ok (p, ev)) /\
    (9 / 10 < if b then p else 1 - p)%R /\ classify (mnum M) p = (if b then spam else ham).
Proof.
  intros M it h ms s b w1 w2 w3 Hit Hm Hb Hnone. exact (three_words it Hit h ms Hm Hb Hnone s b w1 w2 w3).
Qed.
Print Assumptions C134_three_learned_words_decide_with_bigrams.

Theorem C134_learning_a_message_once_with_bigrams_decides_it :
  forall (M : machine) (it : set_order) (h : list call) (ms : list message) (s : stream) (b : bool) w1 w2 w3,
  set_order_ok it -> matched true h ms -> (Z.of_nat (S (length h)) < 2 ^ 48)%Z ->
  Forall (fun m => WNone ∉ m.1) ms -> one_type true (elems s) -> nothing_against b ms s ->
  (forall w, w ∈ [w1; w2; w3] -> tokens_of true s w /\ plain_word w) -> NoDup [w1; w2; w3] ->
  exists o' p ev, spamprob_evidence mem_backend it s
      (fst (run mem_backend it (h ++ [CLearn s b]) (c_new true ∅ : mem_obj (mnum M)))) = (o', Ok (p, ev)) /\
    (9 / 10 < if b then p else 1 - p)%R /\ classify (mnum M) p = (if b then spam else ham).
Proof.
  intros M it h ms s b w1 w2 w3 Hit Hm Hb Hnone Hty. exact (learn_once_bi it Hit h ms Hm Hb Hnone s Hty b w1 w2 w3).
Qed.
Print Assumptions C134_learning_a_message_once_with_bigrams_decides_it.

Theorem C134_short_generators_are_not_learned :
  forall (M : machine) (it : set_order) (h : list call) (ms : list message) (l : list pyword) (b : bool),
  set_order_ok it -> matched true h ms -> (Z.of_nat (S (length h)) < 2 ^ 48)%Z ->
  Forall (fun m => WNone ∉ m.1) ms -> length l <= 3 ->
  (forall w, candidate true l w -> containing true w ms = 0%Z /\ containing false w ms = 0%Z) ->
  exists o' H S, spamprob_evidence mem_backend it (SIter l)
      (fst (run mem_backend it (h ++ [CLearn (SIter l) b]) (c_new true ∅ : mem_obj (mnum M)))) =
    (o', Ok ((1 / 2)%R, [(WBytes (str "*H*"), H); (WBytes (str "*S*"), S)])).
Proof. intros M it h ms l b. exact (short_generator it h ms l b). Qed.
Print Assumptions C134_short_generators_are_not_learned.

(** Three different words, each seen for the first time, learned once as spam
    from a list: the message is not recognised (the last word was not learned,
    and one pair hides the other learned words). *)
Theorem C134_three_different_words_learned_once_refuted :
  forall (M : machine), exists (l : list pyword), length l = 3 /\ NoDup l /\
  exists o' p ev, spamprob_evidence mem_backend remove_dups (SList l)
      (fst (run mem_backend remove_dups [CLearn (SList l) true] (c_new true ∅ : mem_obj (mnum M)))) = (o', Ok (p, ev)) /\
    (p < 9 / 10)%R /\ classify (mnum M) p = unsure.
Proof. intros M. exact three_not_enough. Qed.
Print Assumptions C134_three_different_words_learned_once_refuted.

Example C134_case : let x := WStr (str "ax") in let y := WStr (str "ay") in let z := WStr (str "az") in
  matched true [] [] /\ one_type true [z; y; x; y] /\ nothing_against true [] (SList [z; y; x; y]) /\
  (forall w, w ∈ [z; y; x] -> tokens_of true (SList [z; y; x; y]) w /\ plain_word w) /\
  NoDup [z; y; x].
Proof. exact pair_case. Qed.

Example C134_generator_case : let x := WStr (str "ax") in let y := WStr (str "ay") in let z := WStr (str "az") in
  let l := [z; y; y; y; x; y; y; y; y; y] in
  one_type true l /\ nothing_against true [] (SIter l) /\
  (forall w, w ∈ [z; x; y] -> tokens_of true (SIter l) w /\ plain_word w) /\ NoDup [z; x; y].
Proof. exact pair_generator_case. Qed.
