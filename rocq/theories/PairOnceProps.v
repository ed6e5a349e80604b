(** * C134: learning a message decides how it is classified, with bigrams *)
From Coq Require Import Reals String.
From Verif Require Import Py NumModel ClassifierModel TrainSpec ScoreSpec RealModel MessageModel PairOnceSpec PairOnceProofs TrainProps.

Theorem C134_learning_once_decides_with_bigrams :
  forall (M : machine) (it : set_order), set_order_ok it ->
  forall (h : list call) (ms : list message) (l : list pyword) (s : stream) (b : bool) w1 w2 w3,
  matched true h ms -> (Z.of_nat (S (length h)) < 2 ^ 48)%Z -> Forall (fun m => WNone ∉ m.1) ms ->
  (forall w, w ∈ l -> exists t, w = WStr t) -> elems s = l ->
  w1 <> w2 -> w1 <> w3 -> w2 <> w3 ->
  (forall w, w ∈ [w1; w2; w3] -> before_last l w /\ ~ pair_of l w) ->
  (forall w, w ∈ l \/ pair_of l w -> containing (negb b) w ms = 0%Z) ->
  exists o' p ev, spamprob_evidence mem_backend it s
      (fst (run mem_backend it (h ++ [CLearn (SList l) b]) (c_new true ∅ : mem_obj (mnum M)))) = (o', Ok (p, ev)) /\
    (9 / 10 < if b then p else 1 - p)%R /\ classify (mnum M) p = (if b then spam else ham).
Proof. exact @learned_pairs. Qed.
Print Assumptions C134_learning_once_decides_with_bigrams.

(** Any message none of whose words and pairs is in a message of the other
    label, with three different words that are in messages of this label. *)
Theorem C134_any_message_of_such_words :
  forall (M : machine) (it : set_order), set_order_ok it ->
  forall (h : list call) (ms : list message), matched true h ms -> (Z.of_nat (length h) < 2 ^ 48)%Z -> Forall (fun m => WNone ∉ m.1) ms ->
  forall s : stream, one_type true (elems s) -> forall b : bool,
  (forall w, candidate true (elems s) w -> containing (negb b) w ms = 0%Z) ->
  forall w1 w2 w3, w1 <> w2 -> w1 <> w3 -> w2 <> w3 ->
  (forall w, w ∈ [w1; w2; w3] -> w ∈ elems s /\ ~ pair_of (elems s) w /\ (1 <= containing b w ms)%Z) ->
  exists o' p ev, spamprob_evidence mem_backend it s
      (fst (run mem_backend it h (c_new true ∅ : mem_obj (mnum M)))) = (o', Ok (p, ev)) /\
    (9 / 10 < if b then p else 1 - p)%R /\ classify (mnum M) p = (if b then spam else ham).
Proof. exact @pair_three. Qed.
Print Assumptions C134_any_message_of_such_words.

(** Two words are not enough with bigrams: their pair and the first word are one
    clue together.  Without bigrams they are (C108). *)
Theorem C134_two_words_refuted : forall (M : machine) (it : set_order), set_order_ok it ->
  let m := [WStr (str "a"); WStr (str "c")] in
  exists o' p ev, spamprob_evidence mem_backend it (SList m)
      (fst (run mem_backend it [CLearn (SList m) true] (c_new true ∅ : mem_obj (mnum M)))) = (o', Ok (p, ev)) /\
    (p < 9 / 10)%R /\ classify (mnum M) p = unsure.
Proof. exact @two_words_once. Qed.
Print Assumptions C134_two_words_refuted.

(** Nor does it hold of a message that was learned from an iterator. *)
Theorem C134_iterator_refuted : forall (M : machine) (it : set_order), set_order_ok it ->
  let m := [WStr (str "a"); WStr (str "c"); WStr (str "d"); WStr (str "e")] in
  exists o' p ev, spamprob_evidence mem_backend it (SList m)
      (fst (run mem_backend it [CLearn (SIter m) true] (c_new true ∅ : mem_obj (mnum M)))) = (o', Ok (p, ev)) /\
    (p < 9 / 10)%R /\ classify (mnum M) p = unsure.
Proof. exact @iterator_once. Qed.
Print Assumptions C134_iterator_refuted.

Example C134_once_case : let a := WStr (str "a") in let c := WStr (str "c") in let d := WStr (str "d") in let l := [a; c; d; WStr (str "e")] in
  matched true [] [] /\ (forall w, w ∈ l -> exists t, w = WStr t) /\ a <> c /\ a <> d /\ c <> d /\
  (forall w, w ∈ [a; c; d] -> before_last l w /\ ~ pair_of l w).
Proof. exact pair_case. Qed.
