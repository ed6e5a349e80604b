(** * Property theorems C133 (joining two messages) *)
From Coq Require Import Reals.
From Verif Require Import Py NumModel ClassifierModel TrainSpec ScoreSpec RealModel MachineProofs MessageModel FloatApiProofs ShelveApiProofs
  JoinSpec JoinProofs JoinCases.

(** ** C133 *)
Theorem C133_score_of_joined_messages :
  forall (M : machine) it, set_order_ok it -> forall h, (Z.of_nat (length h) < 2 ^ 48)%Z ->
  forall (b : bool) (t : R) s1 s2 s o1 o2 o3 p1 p2 p3 ev1 ev2 ev3, joins s1 s2 s ->
  let o := fst (run mem_backend it h (c_new false ∅ : obj (mnum M) (gmap pyword winfo))) in
  spamprob_evidence mem_backend it s1 o = (o1, Ok (p1, ev1)) ->
  spamprob_evidence mem_backend it s2 o = (o2, Ok (p2, ev2)) ->
  spamprob_evidence mem_backend it s o = (o3, Ok (p3, ev3)) ->
  separate ev1 ev2 -> (0 <= t <= 1)%R ->
  (t <= if b then p1 else 1 - p1)%R -> (t <= if b then p2 else 1 - p2)%R ->
  (2 * t - 1 - 2 / 10 ^ 11 <= if b then p3 else 1 - p3)%R.
Proof. intros M. exact score_join. Qed.
Print Assumptions C133_score_of_joined_messages.

Theorem C133_joined_messages_are_not_classified_the_other_way :
  forall (M : machine) it, set_order_ok it -> forall h, (Z.of_nat (length h) < 2 ^ 48)%Z ->
  forall s1 s2 s o1 o2 o3 p1 p2 p3 ev1 ev2 ev3, joins s1 s2 s ->
  let o := fst (run mem_backend it h (c_new false ∅ : obj (mnum M) (gmap pyword winfo))) in
  spamprob_evidence mem_backend it s1 o = (o1, Ok (p1, ev1)) ->
  spamprob_evidence mem_backend it s2 o = (o2, Ok (p2, ev2)) ->
  spamprob_evidence mem_backend it s o = (o3, Ok (p3, ev3)) ->
  separate ev1 ev2 ->
  (classify (mnum M) p1 = spam -> classify (mnum M) p2 = spam -> classify (mnum M) p3 <> ham) /\
  (classify (mnum M) p1 = ham -> classify (mnum M) p2 = ham -> classify (mnum M) p3 <> spam).
Proof. intros M. exact classify_join. Qed.
Print Assumptions C133_joined_messages_are_not_classified_the_other_way.

Example C133_case : forall (M : machine), set_order_ok remove_dups /\ exists h s1 s2 s o1 o2 o3 p1 p2 p3 ev1 ev2 ev3,
  let o := fst (run mem_backend remove_dups h (c_new false ∅ : obj (mnum M) (gmap pyword winfo))) in
  (Z.of_nat (length h) < 2 ^ 48)%Z /\ joins s1 s2 s /\
  spamprob_evidence mem_backend remove_dups s1 o = (o1, Ok (p1, ev1)) /\
  spamprob_evidence mem_backend remove_dups s2 o = (o2, Ok (p2, ev2)) /\
  spamprob_evidence mem_backend remove_dups s o = (o3, Ok (p3, ev3)) /\ separate ev1 ev2 /\
  classify (mnum M) p1 = spam /\ classify (mnum M) p2 = spam.
Proof. intros M. split; [exact dups_ok|]. exists [CLearn (SList four) true]. exact join_case. Qed.

Theorem C133_joined_spam_is_spam_refuted :
  forall (M : machine) it, set_order_ok it -> exists h s1 s2 s o1 o2 o3 p1 p2 p3 ev1 ev2 ev3,
  let o := fst (run mem_backend it h (c_new false ∅ : obj (mnum M) (gmap pyword winfo))) in
  joins s1 s2 s /\
  spamprob_evidence mem_backend it s1 o = (o1, Ok (p1, ev1)) /\
  spamprob_evidence mem_backend it s2 o = (o2, Ok (p2, ev2)) /\
  spamprob_evidence mem_backend it s o = (o3, Ok (p3, ev3)) /\
  classify (mnum M) p1 = spam /\ classify (mnum M) p2 = spam /\ classify (mnum M) p3 = unsure.
Proof. intros M it Hit. exists join_calls. exact (join_unsure it Hit). Qed.
Print Assumptions C133_joined_spam_is_spam_refuted.
