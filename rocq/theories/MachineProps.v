(** * Property theorem C121 (the same classifier on different machines) *)
From Coq Require Import Reals Lra String.
From Flocq Require Import Core.
From Verif Require Import Py NumModel ClassifierModel TrainSpec RealModel FloatProofs FloatApiProofs PickleModel PickleSpec
  MessageModel MachineProofs MachineCases TrainProps PickleProps ExactProofs.

(** ** C121 *)
Theorem C121_same_score_on_every_machine :
  forall (M1 M2 : machine) it1 it2, set_order_ok it1 -> set_order_ok it2 ->
  forall (bigrams : bool) (h : list call) (s : stream) p1 ev1 o1', (Z.of_nat (length h) < 2 ^ 48)%Z ->
  spamprob_evidence mem_backend it1 s
    (fst (run mem_backend it1 h (c_new bigrams ∅ : obj (mnum M1) (gmap pyword winfo)))) = (o1', Ok (p1, ev1)) ->
  exists o2' p2 ev2, spamprob_evidence mem_backend it2 s
    (fst (run mem_backend it2 h (c_new bigrams ∅ : obj (mnum M2) (gmap pyword winfo)))) = (o2', Ok (p2, ev2)) /\
    drop 2 ev2 = drop 2 ev1 /\ (Rabs (p1 - p2) <= 8 / 10 ^ 12)%R.
Proof. exact same_everywhere. Qed.
Print Assumptions C121_same_score_on_every_machine.

Theorem C121_stored_classifier_on_another_machine :
  forall (M1 M2 : machine) it1 it2, set_order_ok it1 -> set_order_ok it2 ->
  forall (c : codec) (h : list call) (s : stream) p1 ev1 o1', codec_ok c -> (Z.of_nat (length h) < 2 ^ 48)%Z ->
  let o1 := fst (run mem_backend it1 h (c_new false ∅ : obj (mnum M1) (gmap pyword winfo))) in
  spamprob_evidence mem_backend it1 s o1 = (o1', Ok (p1, ev1)) ->
  exists (o2 o2' : obj (mnum M2) (gmap pyword winfo)) p2 ev2,
    pickle_open c None (pickle_store c o1) = (o2, Ok tt) /\
    spamprob_evidence mem_backend it2 s o2 = (o2', Ok (p2, ev2)) /\
    drop 2 ev2 = drop 2 ev1 /\ (Rabs (p1 - p2) <= 8 / 10 ^ 12)%R.
Proof. exact carried_over. Qed.
Print Assumptions C121_stored_classifier_on_another_machine.

Theorem C121_same_verdict_on_every_machine :
  forall (M1 M2 : machine) p1 p2, (Rabs (p1 - p2) <= 8 / 10 ^ 12)%R ->
  (9 / 10 ^ 12 < Rabs (p1 - 1 / 5))%R -> (9 / 10 ^ 12 < Rabs (p1 - 9 / 10))%R ->
  classify (mnum M1) p1 = classify (mnum M2) p2.
Proof. exact verdict_same. Qed.
Print Assumptions C121_same_verdict_on_every_machine.

(** Two such machines, which differ; and a classifier with a score. *)
Example C121_case : @mrnd odd_machine (bpow radix2 1024) <> @mrnd ieee (bpow radix2 1024) /\ @mlog odd_machine 2 <> @mlog ieee 2.
Proof. exact odd_differs. Qed.

Example C121_case_score :
  forall (M : machine), exists o' p ev,
  spamprob_evidence mem_backend remove_dups (SList [WStr (str "a")])
    (fst (run mem_backend remove_dups [CLearn (SList [WStr (str "a")]) true]
            (c_new false ∅ : obj (mnum M) (gmap pyword winfo)))) = (o', Ok (p, ev)) /\ length ev = 3.
Proof. intros M. exact one_clue_b64. Qed.
