(** * Property theorems C122, C123 (scores in terms of the learned messages) *)
From Coq Require Import Reals String.
From Verif Require Import Py NumModel ClassifierModel TrainSpec ScoreSpec RealModel RealSpec RealProofs MessageModel FloatApiProofs ShelveApiProofs PadCases
  SwaySpec SwayProofs SwayCases ObserveModel ObserveSpec FormulaProofs LeanSpec LeanProofs LeanCases.

(** ** C122 *)
Theorem C122_double_score_in_terms_of_the_learned_messages :
  forall (M : machine) it, set_order_ok it -> forall h ms s, matched false h ms ->
  (Z.of_nat (length ms) < 2 ^ 44)%Z -> Forall (fun m => WNone ∉ m.1) ms -> one_type false (elems s) ->
  exists used o' p ev, spamprob_evidence mem_backend it s
      (fst (run mem_backend it h (c_new false ∅ : obj (mnum M) (gmap pyword winfo)))) = (o', Ok (p, ev)) /\
    (drop 2 ev).*1 = used /\ NoDup used /\ length used <= 150 /\
    (Rabs (p - combined_score (formula ms <$> used)) <= (3 * INR (length ms) + 4) / 10 ^ 12)%R /\
    (forall w, w ∈ used -> w ∈ elems s /\ (1 / 10 - 1 / 10 ^ 14 <= Rabs (formula ms w - 1 / 2))%R) /\
    (forall w, w ∈ elems s -> w ∉ used -> (Rabs (formula ms w - 1 / 2) < 1 / 10 + 1 / 10 ^ 14)%R \/
       length used = 150 /\
       forall v, v ∈ used -> (Rabs (formula ms w - 1 / 2) <= Rabs (formula ms v - 1 / 2) + 1 / 10 ^ 14)%R).
Proof. intros M. exact score_formula_double. Qed.
Print Assumptions C122_double_score_in_terms_of_the_learned_messages.

Example C122_case : set_order_ok remove_dups /\ matched false two_sides two_msgs /\ (Z.of_nat (length two_msgs) < 2 ^ 44)%Z /\
  Forall (fun m => WNone ∉ m.1) two_msgs /\ one_type false (elems (SList padded)).
Proof. split_and!; [exact dups_ok|exact two_matched|done|exact two_none|exact padded_type]. Qed.

(** ** C123 *)
Theorem C123_words_of_one_side_never_decide_for_the_other :
  forall (M : machine) it, set_order_ok it -> forall bigrams h ms, matched bigrams h ms ->
  (Z.of_nat (length ms) < 2 ^ 48)%Z -> Forall (fun m => WNone ∉ m.1) ms ->
  forall s (b : bool) p ev o',
  spamprob_evidence mem_backend it s
    (fst (run mem_backend it h (c_new bigrams ∅ : obj (mnum M) (gmap pyword winfo)))) = (o', Ok (p, ev)) ->
  (forall w, candidate bigrams (elems s) w -> leans b ms w) ->
  Forall (fun x => if b then 1 / 2 < x.2 else x.2 < 1 / 2)%R (drop 2 ev) /\
  (if b then 1 / 2 <= p + 4 / 10 ^ 12 else p <= 1 / 2 + 4 / 10 ^ 12)%R /\
  classify (mnum M) p <> (if b then ham else spam).
Proof. intros M it Hit bg h ms Hm Hb Hn. exact (lean_score it Hit bg h ms Hm Hb Hn). Qed.
Print Assumptions C123_words_of_one_side_never_decide_for_the_other.

Theorem C123_moved_message_is_not_classified_as_spam :
  forall (M : machine) it, set_order_ok it ->
  forall (p : program) i j r (tham tspam : watcher) h ms (s : state (mnum M) (gmap pyword winfo)),
  t_spam tham = false -> t_spam tspam = true -> t_class tham = t_class tspam ->
  p_receivers p Added i = [tham] -> p_receivers p Removed i = [tham] -> p_receivers p Added j = [tspam] ->
  trainable p r -> matched false h ms -> (Z.of_nat (length ms) + 3 < 2 ^ 48)%Z -> Forall (fun m => WNone ∉ m.1) ms ->
  s_class s (t_class tspam) = fst (run mem_backend it h (c_new false ∅ : obj (mnum M) (gmap pyword winfo))) ->
  let ws := (p_tok p r).1 in
  WNone ∉ ws -> one_type false ws ->
  (forall w, w ∈ ws -> leans false ms w) -> (total false ms <= 2 * total true ms)%Z ->
  let s' := (run_ocalls mem_backend it p [OAdd i r None true; ORemove i r true; OAdd j r None true] s).1 in
  s_label s' r = Some true /\
  exists o' q ev, spamprob_evidence mem_backend it (SIter ws) (s_class s' (t_class tspam)) = (o', Ok (q, ev)) /\
    (q <= 1 / 2 + 4 / 10 ^ 12)%R /\ classify (mnum M) q <> spam.
Proof. intros M. exact moved_not_spam. Qed.
Print Assumptions C123_moved_message_is_not_classified_as_spam.

Theorem C123_message_moved_to_spam_is_classified_as_spam_refuted :
  forall (M : machine),
  ~ forall it (p : program) i j r (tham tspam : watcher) h ms (s : state (mnum M) (gmap pyword winfo)) o' q ev, set_order_ok it ->
  t_spam tham = false -> t_spam tspam = true -> t_class tham = t_class tspam ->
  p_receivers p Added i = [tham] -> p_receivers p Removed i = [tham] -> p_receivers p Added j = [tspam] ->
  trainable p r -> matched false h ms ->
  s_class s (t_class tspam) = fst (run mem_backend it h (c_new false ∅ : obj (mnum M) (gmap pyword winfo))) ->
  let s' := (run_ocalls mem_backend it p [OAdd i r None true; ORemove i r true; OAdd j r None true] s).1 in
  spamprob_evidence mem_backend it (SIter (p_tok p r).1) (s_class s' (t_class tspam)) = (o', Ok (q, ev)) ->
  classify (mnum M) q = spam.
Proof. intros M. exact moved_refuted. Qed.
Print Assumptions C123_message_moved_to_spam_is_classified_as_spam_refuted.

Example C123_case : matched false two_sides two_msgs /\ Forall (fun m => WNone ∉ m.1) two_msgs /\
  (forall w, candidate false (elems (SList lunch)) w -> leans false two_msgs w) /\ ~ leans false two_msgs (sw "pills") /\
  trainable desk 0 /\ WNone ∉ (p_tok desk 0).1 /\ one_type false (p_tok desk 0).1 /\ (total false two_msgs <= 2 * total true two_msgs)%Z.
Proof.
  split_and!; [exact two_matched|exact two_none|exact lunch_leans|exact pills_do_not|done|exact lunch_none|exact lunch_one_type|done].
Qed.
