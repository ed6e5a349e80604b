(** * Property theorems C118 to C120 (training and the probability of words) *)
From Coq Require Import Reals String.
From Verif Require Import Py NumModel ClassifierModel TrainSpec ScoreSpec RealModel RealSpec RealProofs FloatApiProofs ShelveApiProofs PadCases SwaySpec SwayProofs PushProofs SwayCases.

(** ** C118 *)
Theorem C118_other_words_exact :
  forall it, set_order_ok it -> forall bigrams h ms s (b : bool) w,
  matched bigrams h ms -> ~ tokens_of bigrams s w ->
  let prob h := spam_probability (fst (run mem_backend it h (c_new bigrams ∅ : obj exact (gmap pyword winfo)))) w in
  exists q q', prob h = Ok q /\ prob (h ++ [CLearn s b]) = Ok q' /\
    (if b then q' <= q else q <= q')%R /\ (Rabs (q' - q) <= 1 / IZR (total b ms + 1))%R.
Proof. exact other_words_exact. Qed.
Print Assumptions C118_other_words_exact.

Theorem C118_other_words_double :
  forall (M : machine) it, set_order_ok it -> forall bigrams h ms s (b : bool) w,
  matched bigrams h ms -> (Z.of_nat (length ms) < 2 ^ 47)%Z -> ~ tokens_of bigrams s w ->
  let prob h := spam_probability (fst (run mem_backend it h (c_new bigrams ∅ : obj (mnum M) (gmap pyword winfo)))) w in
  exists q q', prob h = Ok q /\ prob (h ++ [CLearn s b]) = Ok q' /\
    (if b then q' <= q + 4 / 10 ^ 15 else q <= q' + 4 / 10 ^ 15)%R /\ (Rabs (q' - q) <= 1 / IZR (total b ms + 1) + 4 / 10 ^ 15)%R.
Proof. intros M. exact other_words_double. Qed.
Print Assumptions C118_other_words_double.

Example C118_case : set_order_ok remove_dups /\ matched false two_sides two_msgs /\
  ~ tokens_of false (SList [sw "the"; sw "dinner"]) (sw "pills") /\ total true two_msgs = 1%Z.
Proof. split_and!; [exact dups_ok|exact two_matched|exact other_word|done]. Qed.

(** A word of the message itself can change sides, however often it was seen. *)
Theorem C118_one_message_outweighs_many :
  forall (M : machine) w n, 1 <= n -> forall it, set_order_ok it -> (Z.of_nat n < 2 ^ 40)%Z ->
  exists h ms, matched false h ms /\ containing false w ms = Z.of_nat n /\ containing true w ms = 0%Z /\
  let prob h := spam_probability (fst (run mem_backend it h (c_new false ∅ : obj (mnum M) (gmap pyword winfo)))) w in
  exists q q', prob h = Ok q /\ prob (h ++ [CLearn (SList [w]) true]) = Ok q' /\ (q < 1 / 6)%R /\ (9 / 10 < q')%R.
Proof. intros M w n Hn. exact (many_outweighed w n Hn). Qed.
Print Assumptions C118_one_message_outweighs_many.

(** ** C119 *)
Theorem C119_learning_again_exact :
  forall it, set_order_ok it -> forall bigrams h h' ms ms' k w,
  matched bigrams h ms -> matched bigrams h' ms' -> 1 <= k -> ms' ≡ₚ times k ms ->
  let prob h := spam_probability (fst (run mem_backend it h (c_new bigrams ∅ : obj exact (gmap pyword winfo)))) w in
  exists q q', prob h = Ok q /\ prob h' = Ok q' /\ (1 / 2 <= q -> q <= q')%R /\ (q <= 1 / 2 -> q' <= q)%R /\
    (strong (A:=exact) q = true -> strong (A:=exact) q' = true).
Proof. exact again_exact. Qed.
Print Assumptions C119_learning_again_exact.

Theorem C119_learning_again_double :
  forall (M : machine) it, set_order_ok it -> forall bigrams h h' ms ms' k w,
  matched bigrams h ms -> matched bigrams h' ms' -> 1 <= k -> ms' ≡ₚ times k ms -> (Z.of_nat (length ms') < 2 ^ 48)%Z ->
  let prob h := spam_probability (fst (run mem_backend it h (c_new bigrams ∅ : obj (mnum M) (gmap pyword winfo)))) w in
  exists q q', prob h = Ok q /\ prob h' = Ok q' /\
    (1 / 2 <= q -> q <= q' + 8 / 10 ^ 15)%R /\ (q <= 1 / 2 -> q' <= q + 8 / 10 ^ 15)%R.
Proof. intros M. exact again_double. Qed.
Print Assumptions C119_learning_again_double.

Example C119_case : matched false two_sides two_msgs /\ matched false (two_sides ++ two_sides) (two_msgs ++ two_msgs) /\
  two_msgs ++ two_msgs ≡ₚ times 2 two_msgs.
Proof. split_and!; [exact two_matched|exact twice_matched|done]. Qed.

(** ** C120 *)
Theorem C120_score_in_terms_of_the_learned_messages :
  forall it, set_order_ok it -> forall h ms s, matched false h ms ->
  Forall (fun m => WNone ∉ m.1) ms -> one_type false (elems s) ->
  exists used o' ev, spamprob_evidence mem_backend it s
      (fst (run mem_backend it h (c_new false ∅ : obj exact (gmap pyword winfo)))) = (o', Ok (combined_score (formula ms <$> used), ev)) /\
    drop 2 ev = (fun w => (w, formula ms w)) <$> used /\
    NoDup used /\ length used <= 150 /\
    (forall w, w ∈ used -> w ∈ elems s /\ (1 / 10 <= Rabs (formula ms w - 1 / 2))%R) /\
    (forall w, w ∈ elems s -> w ∉ used -> (Rabs (formula ms w - 1 / 2) < 1 / 10)%R \/
       length used = 150 /\ forall v, v ∈ used -> (Rabs (formula ms w - 1 / 2) <= Rabs (formula ms v - 1 / 2))%R).
Proof. exact score_formula. Qed.
Print Assumptions C120_score_in_terms_of_the_learned_messages.

Example C120_case : matched false two_sides two_msgs /\ Forall (fun m => WNone ∉ m.1) two_msgs /\ one_type false (elems (SList padded)).
Proof. split_and!; [exact two_matched|exact two_words|exact padded_type]. Qed.

Theorem C120_a_further_spam_word_never_lowers_the_score_refuted :
  ~ forall it h ms s w p p' ev ev' o1 o2, set_order_ok it -> matched false h ms ->
  let o := fst (run mem_backend it h (c_new false ∅ : obj exact (gmap pyword winfo))) in
  spamprob_evidence mem_backend it (SList s) o = (o1, Ok (p, ev)) ->
  spamprob_evidence mem_backend it (SList (s ++ [w])) o = (o2, Ok (p', ev')) ->
  (6 / 10 <= formula ms w)%R -> (p <= p')%R.
Proof. exact spam_word_lowers. Qed.
Print Assumptions C120_a_further_spam_word_never_lowers_the_score_refuted.
