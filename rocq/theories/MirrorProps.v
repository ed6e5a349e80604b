(** * Property theorems C130 (exchanging ham and spam in double precision) *)
From Coq Require Import Reals String.
From Verif Require Import Py NumModel ClassifierModel TrainSpec ScoreSpec RealModel RealSpec MachineProofs MessageModel FloatApiProofs ShelveApiProofs PadCases
  SwaySpec SwayCases MirrorSpec MirrorProofs MirrorCases.

(** ** C130 *)
Theorem C130_exchanging_labels_mirrors_the_double_score :
  forall (M1 M2 : machine) it1 it2 h ms s, set_order_ok it1 -> set_order_ok it2 -> matched false h ms ->
  (Z.of_nat (length ms) < 2 ^ 44)%Z -> Forall (fun m => WNone ∉ m.1) ms -> one_type false (elems s) ->
  clear_cut ms (elems s) -> few_clues ms (elems s) ->
  exists o1 p1 ev1 o2 p2 ev2,
    spamprob_evidence mem_backend it1 s
      (fst (run mem_backend it1 h (c_new false ∅ : obj (mnum M1) (gmap pyword winfo)))) = (o1, Ok (p1, ev1)) /\
    spamprob_evidence mem_backend it2 s
      (fst (run mem_backend it2 (opposite <$> h) (c_new false ∅ : obj (mnum M2) (gmap pyword winfo)))) = (o2, Ok (p2, ev2)) /\
    (drop 2 ev1).*1 ≡ₚ (drop 2 ev2).*1 /\
    (Rabs (p2 - (1 - p1)) <= 2 * (3 * INR (length ms) + 4) / 10 ^ 12)%R.
Proof. exact score_mirror_double. Qed.
Print Assumptions C130_exchanging_labels_mirrors_the_double_score.

Theorem C130_exchanging_labels_always_mirrors_the_double_score_refuted :
  forall (M : machine), ~ forall it h ms s o1 p1 ev1 o2 p2 ev2,
  set_order_ok it -> matched false h ms -> Forall (fun m => WNone ∉ m.1) ms -> one_type false (elems s) ->
  spamprob_evidence mem_backend it s (fst (run mem_backend it h (c_new false ∅ : obj (mnum M) (gmap pyword winfo)))) = (o1, Ok (p1, ev1)) ->
  spamprob_evidence mem_backend it s (fst (run mem_backend it (opposite <$> h) (c_new false ∅ : obj (mnum M) (gmap pyword winfo)))) = (o2, Ok (p2, ev2)) ->
  (Rabs (p2 - (1 - p1)) < 8 / 100)%R.
Proof. exact mirror_refuted. Qed.
Print Assumptions C130_exchanging_labels_always_mirrors_the_double_score_refuted.

Example C130_case : matched false two_sides two_msgs /\ (Z.of_nat (length two_msgs) < 2 ^ 44)%Z /\ Forall (fun m => WNone ∉ m.1) two_msgs /\
  one_type false [sw "pills"; sw "the"; sw "lunch"; sw "other"] /\
  clear_cut two_msgs [sw "pills"; sw "the"; sw "lunch"; sw "other"] /\ few_clues two_msgs [sw "pills"; sw "the"; sw "lunch"; sw "other"].
Proof. split_and!; [exact two_matched|done|exact two_words|exact four_type|apply two_clear|apply two_clear]. Qed.
