(** * Property theorems C131 (how long a trainer trains) *)
From Verif Require Import Py NumModel ClassifierModel TrainSpec StripModel ObserveModel ObserveSpec LifeModel LifeSpec LifeProofs.

(** ** C131 *)
Theorem C131_trainers_train_what_reaches_them_while_they_live :
  forall (A : num) it p ord xs (s : state A (gmap pyword winfo)), set_order_ok it -> (forall l, ord l ≡ₚ l) ->
  all_trainable p xs -> new_trainers xs -> (forall j, o_bigrams (s_class s j) = Some false) ->
  forall j b, let o := s_class s j in let o' := s_class (run_lops mem_backend it p ord xs [] s).2 j in
  (total_of b o' = total_of b o + lessons_for j b (reached [] xs))%Z /\
  (forall w, count b (o_store o' !! w) = count b (o_store o !! w) + lessons_with p j b w (reached [] xs))%Z.
Proof. intros A it p ord xs s Hit Hord. exact (life_counts it Hit p ord Hord xs s). Qed.
Print Assumptions C131_trainers_train_what_reaches_them_while_they_live.

Theorem C131_messages_that_reach_no_trainer_change_no_classifier :
  forall (A : num) it p ord xs (s : state A (gmap pyword winfo)), set_order_ok it -> (forall l, ord l ≡ₚ l) ->
  all_trainable p xs -> new_trainers xs -> (forall j, o_bigrams (s_class s j) <> None) ->
  reached [] xs = [] -> forall j, same_training (s_class (run_lops mem_backend it p ord xs [] s).2 j) (s_class s j).
Proof. intros A it p ord xs s Hit Hord. exact (life_nothing it Hit p ord Hord xs s). Qed.
Print Assumptions C131_messages_that_reach_no_trainer_change_no_classifier.

Theorem C131_message_added_after_creating_a_trainer_is_learned_refuted :
  forall A : num, ~ forall it p ord pre mid id w corpora i r (s : state A (gmap pyword winfo)),
  set_order_ok it -> (forall l, ord l ≡ₚ l) ->
  let xs := pre ++ [LNew id w corpora] ++ mid ++ [LCall (OAdd i r None true)] in
  all_trainable p xs -> new_trainers xs -> i ∈ corpora -> (forall j, o_bigrams (s_class s j) = Some false) ->
  (total_of (t_spam w) (s_class s (t_class w)) < total_of (t_spam w) (s_class (run_lops mem_backend it p ord xs [] s).2 (t_class w)))%Z.
Proof. exact unkept_refuted. Qed.
Print Assumptions C131_message_added_after_creating_a_trainer_is_learned_refuted.

Theorem C131_message_already_in_the_corpus_is_learned_refuted :
  forall A : num, ~ forall it p ord pre id w corpora i r (s : state A (gmap pyword winfo)),
  set_order_ok it -> (forall l, ord l ≡ₚ l) ->
  let xs := pre ++ [LCall (OAdd i r None true); LNew id w corpora] in
  all_trainable p xs -> new_trainers xs -> i ∈ corpora -> (forall j, o_bigrams (s_class s j) = Some false) ->
  (total_of (t_spam w) (s_class s (t_class w)) < total_of (t_spam w) (s_class (run_lops mem_backend it p ord xs [] s).2 (t_class w)))%Z.
Proof. exact earlier_refuted. Qed.
Print Assumptions C131_message_already_in_the_corpus_is_learned_refuted.

Example C131_case : reached [] script =
    [(Watcher 0 true, 2); (Watcher 0 true, 3); (Watcher 0 false, 3); (Watcher 0 true, 4); (Watcher 0 true, 4); (Watcher 1 true, 4)] /\
  all_trainable shop script /\ new_trainers script /\
  reached [] (take 3 script) = [] /\ lessons_for 0 true (reached [] script) = 4%Z.
Proof. split_and!; [apply script_case..|reflexivity|reflexivity]. Qed.
