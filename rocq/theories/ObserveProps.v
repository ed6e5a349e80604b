(** * Properties C93 - C97: trainers that observe corpora, labels of messages *)
From Coq Require Import String.
From Verif Require Import Py NumModel RealModel ClassifierModel TrainSpec StripModel RaiseModel ObserveModel ObserveSpec ObserveProofs.

(** ** C93 *)
Theorem C93_call_raises_iff_untrainable : forall (A : num) it p xs (s : state A (gmap pyword winfo)), set_order_ok it ->
  (forall j, o_bigrams (s_class s j) <> None) -> (run_ocalls mem_backend it p xs s).2 = call_result p <$> xs.
Proof. intros A it p xs s Hit. exact (observe_results it Hit p xs s). Qed.
Print Assumptions C93_call_raises_iff_untrainable.

Theorem C93_corpora_ignore_exceptions : forall (A : num) it p xs (s : state A (gmap pyword winfo)) i, set_order_ok it ->
  (forall j, o_bigrams (s_class s j) <> None) ->
  s_corpora (run_ocalls mem_backend it p xs s).1 i = foldl (dict_step p i) (s_corpora s i) xs.
Proof. intros A it p xs s i Hit. exact (observe_corpora it Hit p xs s i). Qed.
Print Assumptions C93_corpora_ignore_exceptions.

(** ** C94 *)
Theorem C94_label_of_the_last_training : forall (A : num) it p xs (s : state A (gmap pyword winfo)) r, set_order_ok it ->
  (forall j, o_bigrams (s_class s j) <> None) ->
  s_label (run_ocalls mem_backend it p xs s).1 r = match last (labels_given p r xs) with Some b => Some b | None => s_label s r end.
Proof. intros A it p xs s r Hit. exact (observe_labels it Hit p xs s r). Qed.
Print Assumptions C94_label_of_the_last_training.

(** ** C95 *)
Theorem C95_classifier_learns_what_is_trainable : forall (A : num) it p xs (s : state A (gmap pyword winfo)) j, set_order_ok it ->
  (forall j, o_bigrams (s_class s j) <> None) ->
  let o := s_class (run_ocalls mem_backend it p xs s).1 j in
  let good := (run mem_backend it (lessons p j xs) (s_class s j)).1 in
  o_store o = o_store good /\
  o_nspam o = (o_nspam good + failed_lessons p j true xs)%Z /\
  o_nham o = (o_nham good + failed_lessons p j false xs)%Z.
Proof. intros A it p xs s j Hit. exact (observe_classifiers it Hit p xs s j). Qed.
Print Assumptions C95_classifier_learns_what_is_trainable.

(** ** C96 *)
Theorem C96_untrain_undoes_train : forall (A : num) it p t r (s : state A (gmap pyword winfo)), set_order_ok it ->
  counts_ok (s_class s (t_class t)) -> o_bigrams (s_class s (t_class t)) <> None -> trainable p r ->
  exists s1 s2, o_train mem_backend it p t r s = (s1, Ok tt) /\ o_untrain mem_backend it p t r s1 = (s2, Ok tt) /\
    s_label s1 r = Some (t_spam t) /\ s_label s2 r = None /\
    (forall r', r' <> r -> s_label s2 r' = s_label s r') /\
    same_training (s_class s2 (t_class t)) (s_class s (t_class t)) /\
    (forall j, j <> t_class t -> s_class s2 j = s_class s j) /\ s_corpora s2 = s_corpora s.
Proof. intros A it p t r s Hit. exact (train_untrain it Hit p t r s). Qed.
Print Assumptions C96_untrain_undoes_train.

Theorem C96_untokenizable : forall (A : num) it p t r e (s : state A (gmap pyword winfo)),
  o_bigrams (s_class s (t_class t)) <> None ->
  (0 <= o_nspam (s_class s (t_class t)))%Z -> (0 <= o_nham (s_class s (t_class t)))%Z ->
  p_key p r = true -> (p_tok p r).2 = Some e ->
  exists s1 s2, o_train mem_backend it p t r s = (s1, Err e) /\ o_untrain mem_backend it p t r s1 = (s2, Err e) /\
    s_label s1 = s_label s /\ s_label s2 = s_label s /\
    total_of (t_spam t) (s_class s1 (t_class t)) = (total_of (t_spam t) (s_class s (t_class t)) + 1)%Z /\
    same_training (s_class s2 (t_class t)) (s_class s (t_class t)).
Proof. exact @train_untrain_untokenizable. Qed.
Print Assumptions C96_untokenizable.

Theorem C96_untrain_untrained_raises : forall (A : num) it p t r (s : state A (gmap pyword winfo)),
  o_bigrams (s_class s (t_class t)) <> None -> (total_of (t_spam t) (s_class s (t_class t)) <= 0)%Z -> p_key p r = true ->
  exists s', o_untrain mem_backend it p t r s = (s', Err ValueError) /\
    s_label s' = s_label s /\ s_corpora s' = s_corpora s /\ forall j, same_training (s_class s' j) (s_class s j).
Proof. exact @untrain_untrained. Qed.
Print Assumptions C96_untrain_untrained_raises.

(** ** C97 *)
Theorem C97_moved_message_stays_ham : forall (A : num) it p i j r (tham tspam : watcher) bg (s : state A (gmap pyword winfo)), set_order_ok it ->
  t_spam tham = false -> t_spam tspam = true -> t_class tham = t_class tspam ->
  p_receivers p Added i = [tham] -> p_receivers p Removed i = [tham] -> p_receivers p Added j = [tspam] ->
  o_bigrams (s_class s (t_class tspam)) = Some bg -> trainable p r ->
  let s' := (run_ocalls mem_backend it p [OAdd i r None true; ORemove i r true; OAdd j r None true] s).1 in
  let o := s_class s (t_class tspam) in let o' := s_class s' (t_class tspam) in
  s_label s' r = Some true /\
  total_of true o' = (total_of true o + 1)%Z /\ total_of false o' = (total_of false o + 2)%Z /\
  forall w, tokens_of bg (SIter (p_tok p r).1) w ->
    count true (o_store o' !! w) = (count true (o_store o !! w) + 1)%Z /\
    count false (o_store o' !! w) = (count false (o_store o !! w) + 2)%Z.
Proof. intros A it p i j r th ts bg s Hit. exact (move_message it Hit p i j r th ts bg s). Qed.
Print Assumptions C97_moved_message_stays_ham.

Theorem C94_removed_message_is_untrained_refuted : forall A : num,
  ~ forall it p (s : state A (gmap pyword winfo)) i r t,
  set_order_ok it -> trainable p r -> p_receivers p Added i = [t] -> p_receivers p Removed i = [t] ->
  (forall j, o_bigrams (s_class s j) <> None) ->
  s_label (run_ocalls mem_backend it p [OAdd i r None true; ORemove i r true] s).1 r = None.
Proof. exact removed_stays_trained. Qed.
Print Assumptions C94_removed_message_is_untrained_refuted.

(** Corpus 0 is watched by a ham trainer, corpus 1 by a spam trainer of the same
    classifier, corpus 2 by trainers of two classifiers.  Tokenizing message 1
    raises, message 2 has no key. *)
Definition office : program := Program
  (fun r => Some [N.of_nat r]) (fun r => negb (r =? 2))
  (fun r => if r =? 1 then ([WStr (str "late")], Some TypeError) else ([WStr (str "cheap")], None))
  (fun _ i => match i with 0 => [Watcher 0 false] | 1 => [Watcher 0 true] | _ => [Watcher 1 false; Watcher 0 true] end).
Definition idle {A : num} : state A (gmap pyword winfo) := State (fun _ => ∅) (fun _ => c_new false ∅) (fun _ => None).
Definition busy : list ocall :=
  [OAdd 0 0 None true; OAdd 2 1 None true; ORemove 2 1 true; OAdd 2 2 None true; OAdd 2 3 None false; ORemove 0 0 true; OAdd 1 0 None true; OTrain (Watcher 1 true) 0].

Example C93_case : let '(s, ys) := run_ocalls mem_backend (fun l => remove_dups l) office busy (idle (A := exact)) in
  ys = [Ok tt; Err TypeError; Err TypeError; Err AttributeError; Ok tt; Ok tt; Ok tt; Ok tt] /\
  map_to_list (s_corpora s 0) = [] /\ map_to_list (s_corpora s 1) = [(Some [0%N], 0)] /\
  map_to_list (s_corpora s 2) = [(Some [2%N], 2); (Some [3%N], 3)].
Proof. vm_compute. repeat split. Qed.

Example C94_case : let s := (run_ocalls mem_backend (fun l => remove_dups l) office busy (idle (A := exact))).1 in
  labels_given office 0 busy = [false; false; true; true] /\ s_label s 0 = Some true /\ s_label s 1 = None /\ s_label s 2 = None /\
  s_label (run_ocalls mem_backend (fun l => remove_dups l) office (take 6 busy) (idle (A := exact))).1 0 = Some false.
Proof. vm_compute. repeat split. Qed.

Example C95_case : let s := (run_ocalls mem_backend (fun l => remove_dups l) office busy (idle (A := exact))).1 in
  o_nspam (s_class s 0) = 1%Z /\ o_nham (s_class s 0) = 2%Z /\ o_nspam (s_class s 1) = 1%Z /\ o_nham (s_class s 1) = 2%Z /\
  failed_lessons office 1 false busy = 2%Z /\
  o_store (s_class s 0) !! WStr (str "cheap") = Some (WI 1 2) /\ o_store (s_class s 1) !! WStr (str "late") = None.
Proof. vm_compute. repeat split. Qed.

Example C96_case : trainable office 0 /\ p_key office 1 = true /\ (p_tok office 1).2 = Some TypeError /\
  counts_ok (s_class (idle (A := exact)) 0) /\ o_bigrams (s_class (idle (A := exact)) 0) <> None /\ (total_of true (s_class (idle (A := exact)) 0) <= 0)%Z.
Proof. repeat split; done. Qed.

Example C97_case : let s := (run_ocalls mem_backend (fun l => remove_dups l) office [OAdd 0 0 None true; ORemove 0 0 true; OAdd 1 0 None true] (idle (A := exact))).1 in
  s_label s 0 = Some true /\ o_store (s_class s 0) !! WStr (str "cheap") = Some (WI 1 2).
Proof. vm_compute. repeat split. Qed.
