(** * Property theorems C108 - C110 (what training does to scores) *)
From Coq Require Import Reals Lra String.
From Verif Require Import Py NumModel ClassifierModel TrainSpec ScoreProofs ScoreSpec RealModel RealSpec
  RealProofs ExactProofs ApiProofs FloatApiProofs MessageModel OnceSpec OnceCases TrainProps.

(** ** C108 *)
Theorem C108_learning_a_message_once_decides_it :
  forall (M : machine) (it : set_order) (h : list call) (ms : list message) (s : stream) (b : bool) w1 w2,
  set_order_ok it -> matched false h ms -> (Z.of_nat (S (length h)) < 2 ^ 48)%Z ->
  Forall (fun m => WNone ∉ m.1) ms -> one_type false (elems s) -> WNone ∉ elems s ->
  w1 ∈ elems s -> w2 ∈ elems s -> w1 <> w2 ->
  (forall w, w ∈ elems s -> containing (negb b) w ms = 0%Z) ->
  exists o' p ev, spamprob_evidence mem_backend it s
      (fst (run mem_backend it (h ++ [CLearn s b]) (c_new false ∅ : mem_obj (mnum M)))) = (o', Ok (p, ev)) /\
    (9 / 10 < if b then p else 1 - p)%R /\ classify (mnum M) p = (if b then spam else ham).
Proof.
  intros M it h ms s b w1 w2 Hit Hm Hb Hnone Hty Hn.
  exact (learn_once it Hit h ms Hm Hb Hnone s Hty Hn b w1 w2).
Qed.
Print Assumptions C108_learning_a_message_once_decides_it.

Theorem C108_any_message_of_such_words :
  forall (M : machine) (it : set_order) (h : list call) (ms : list message) (s : stream) (b : bool) w1 w2,
  set_order_ok it -> matched false h ms -> (Z.of_nat (length h) < 2 ^ 48)%Z ->
  Forall (fun m => WNone ∉ m.1) ms -> one_type false (elems s) ->
  w1 ∈ elems s -> w2 ∈ elems s -> w1 <> w2 ->
  (forall w, w ∈ elems s -> only_in b 1 ms w) ->
  exists o' p ev, spamprob_evidence mem_backend it s
      (fst (run mem_backend it h (c_new false ∅ : mem_obj (mnum M)))) = (o', Ok (p, ev)) /\
    (9 / 10 < if b then p else 1 - p)%R /\ classify (mnum M) p = (if b then spam else ham).
Proof.
  intros M it h ms s b w1 w2 Hit Hm Hb Hnone Hty.
  exact (such_words it Hit h ms Hm Hb Hnone s Hty b w1 w2).
Qed.
Print Assumptions C108_any_message_of_such_words.

Theorem C108_one_word_learned_as_ham_once :
  forall (M : machine) (it : set_order) (h : list call) (ms : list message) (s : stream),
  set_order_ok it -> matched false h ms -> (Z.of_nat (S (length h)) < 2 ^ 48)%Z ->
  Forall (fun m => WNone ∉ m.1) ms -> one_type false (elems s) -> WNone ∉ elems s ->
  elems s <> [] -> (forall w, w ∈ elems s -> containing true w ms = 0%Z) ->
  exists o' p ev, spamprob_evidence mem_backend it s
      (fst (run mem_backend it (h ++ [CLearn s false]) (c_new false ∅ : mem_obj (mnum M)))) = (o', Ok (p, ev)) /\
    (p < 2 / 10)%R /\ classify (mnum M) p = ham.
Proof.
  intros M it h ms s Hit Hm Hb Hnone Hty Hn. exact (learn_ham_once it Hit h ms Hm Hb Hnone s Hty Hn).
Qed.
Print Assumptions C108_one_word_learned_as_ham_once.

Theorem C108_one_word_learned_as_spam_twice :
  forall (M : machine) (it : set_order) (h : list call) (ms : list message) (s : stream),
  set_order_ok it -> matched false h ms -> (Z.of_nat (S (S (length h))) < 2 ^ 48)%Z ->
  Forall (fun m => WNone ∉ m.1) ms -> one_type false (elems s) -> WNone ∉ elems s ->
  elems s <> [] -> (forall w, w ∈ elems s -> containing false w ms = 0%Z) ->
  exists o' p ev, spamprob_evidence mem_backend it s
      (fst (run mem_backend it (h ++ [CLearn s true; CLearn s true]) (c_new false ∅ : mem_obj (mnum M)))) = (o', Ok (p, ev)) /\
    (9 / 10 < p)%R /\ classify (mnum M) p = spam.
Proof.
  intros M it h ms s Hit Hm Hb Hnone Hty Hn Hne. exact (learn_spam_twice it Hit h ms Hm Hnone s Hty Hn Hne Hb).
Qed.
Print Assumptions C108_one_word_learned_as_spam_twice.

(** A message of one word is not recognised after being learned as spam once. *)
Theorem C108_one_word_learned_as_spam_once_refuted :
  forall (M : machine), exists o' p ev, spamprob_evidence mem_backend remove_dups (SList [WStr (str "a")])
      (fst (run mem_backend remove_dups [CLearn (SList [WStr (str "a")]) true]
         (c_new false ∅ : mem_obj (mnum M)))) = (o', Ok (p, ev)) /\
    (p < 9 / 10)%R /\ classify (mnum M) p = unsure.
Proof. intros M. exact one_word_once. Qed.
Print Assumptions C108_one_word_learned_as_spam_once_refuted.

Example C108_case :
  matched false [CLearn (SList [WStr (str "a")]) true] [([WStr (str "a")], true)] /\
  (Z.of_nat (S (S (length [CLearn (SList [WStr (str "a")]) true]))) < 2 ^ 48)%Z /\
  Forall (fun m : message => WNone ∉ m.1) [([WStr (str "a")], true)] /\
  one_type false [WStr (str "a"); WStr (str "c")] /\ WNone ∉ [WStr (str "a"); WStr (str "c")] /\
  (forall w, w ∈ [WStr (str "a"); WStr (str "c")] -> containing (negb true) w [([WStr (str "a")], true)] = 0%Z) /\
  only_in true 1 [([WStr (str "a")], true)] (WStr (str "a")).
Proof. exact once_case. Qed.

(** ** C109 *)
Theorem C109_learning_as_spam_never_lowers_the_score_refuted :
  forall (M : machine), exists (h : list call) (s : stream) o1 o2 p1 p2 ev1 ev2, matched false h twelve_ms /\
  spamprob_evidence mem_backend remove_dups s
    (fst (run mem_backend remove_dups h (c_new false ∅ : mem_obj (mnum M)))) = (o1, Ok (p1, ev1)) /\
  spamprob_evidence mem_backend remove_dups s
    (fst (run mem_backend remove_dups (h ++ [CLearn s true]) (c_new false ∅ : mem_obj (mnum M)))) = (o2, Ok (p2, ev2)) /\
  (p2 < p1)%R.
Proof. intros M. exact learning_lowers. Qed.
Print Assumptions C109_learning_as_spam_never_lowers_the_score_refuted.

(** ** C110 *)
Theorem C110_even_words_are_never_clues :
  forall (M : machine) (it : set_order) (bigrams : bool) (h : list call) (ms : list message) (s : stream) p ev o',
  set_order_ok it -> matched bigrams h ms -> (Z.of_nat (length ms) < 2 ^ 48)%Z ->
  spamprob_evidence mem_backend it s
    (fst (run mem_backend it h (c_new bigrams ∅ : mem_obj (mnum M)))) = (o', Ok (p, ev)) ->
  Forall (fun x => ~ even_word ms x.1) (drop 2 ev).
Proof. intros M it bg h ms s p ev o' Hit Hm Hb. exact (even_not_a_clue it Hit bg h ms Hm Hb s p ev o'). Qed.
Print Assumptions C110_even_words_are_never_clues.

Theorem C110_messages_of_even_words_score_one_half :
  forall (M : machine) (it : set_order) (bigrams : bool) (h : list call) (ms : list message) (s : stream),
  set_order_ok it -> matched bigrams h ms -> (Z.of_nat (length ms) < 2 ^ 48)%Z ->
  Forall (fun m => WNone ∉ m.1) ms ->
  (forall w, candidate bigrams (elems s) w -> even_word ms w) ->
  exists o' H S, spamprob_evidence mem_backend it s
    (fst (run mem_backend it h (c_new bigrams ∅ : mem_obj (mnum M)))) =
    (o', Ok ((1 / 2)%R, [(WBytes (str "*H*"), H); (WBytes (str "*S*"), S)])).
Proof. intros M it bg h ms s Hit Hm Hb. exact (even_scores it Hit bg h ms Hm Hb s). Qed.
Print Assumptions C110_messages_of_even_words_score_one_half.

Example C110_case : let a := WStr (str "a") in let c := WStr (str "c") in
  let ms := [([a; c], false); ([a], false); ([a], true)] in
  matched false [CLearn (SList [a]) true; CLearn (SList [a]) false; CLearn (SList [a; c]) false] ms /\
  even_word ms a /\ ~ even_word ms c.
Proof. exact even_case. Qed.
