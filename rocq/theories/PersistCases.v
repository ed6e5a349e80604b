(** * Cases for learning a message again and again (C124) *)
From Coq Require Import Reals Lra Lia String.
From Verif Require Import Py NumModel ClassifierModel TrainSpec TrainProofs ScoreSpec RealModel RealProofs FloatApiProofs MessageModel
  PadCases LeanCases ShelveApiProofs PersistProofs.

Definition dinner : list pyword := [sw "the"; sw "lunch"; sw "dinner"].
Definition old_lunch : list pyword := [sw "the"; sw "lunch"].

Lemma dinner_type : one_type false dinner.
Proof.
  intros w1 w2. unfold dinner. rewrite !elem_of_cons, !elem_of_nil.
  intros [->|[->|[->|[]]]] [->|[->|[->|[]]]]; done.
Qed.

Lemma dinner_none : WNone ∉ dinner.
Proof. unfold dinner. rewrite !elem_of_cons, elem_of_nil. intros [H|[H|[H|[]]]]; discriminate H. Qed.

Lemma dinner_new : sw "dinner" ∈ dinner /\ containing false (sw "dinner") two_msgs = 0%Z.
Proof. split; [apply (bool_decide_unpack _); by vm_compute|by vm_compute]. Qed.

Lemma old_type : one_type false old_lunch.
Proof.
  intros w1 w2. unfold old_lunch. rewrite !elem_of_cons, !elem_of_nil.
  intros [->|[->|[]]] [->|[->|[]]]; done.
Qed.

Lemma old_none : WNone ∉ old_lunch.
Proof. unfold old_lunch. rewrite !elem_of_cons, elem_of_nil. intros [H|[H|[]]]; discriminate H. Qed.

Lemma old_all w : w ∈ old_lunch -> containing false w two_msgs = total false two_msgs.
Proof. unfold old_lunch. rewrite !elem_of_cons, elem_of_nil. intros [->|[->|[]]]; by vm_compute. Qed.

Lemma two_hams : (0 < total false two_msgs)%Z.
Proof. change (0 < 1)%Z. lia. Qed.

Lemma persist_refuted {M : machine} :
  ~ forall it h ms s, set_order_ok it -> matched false h ms -> Forall (fun m => WNone ∉ m.1) ms ->
    one_type false (elems s) -> WNone ∉ elems s -> elems s <> [] ->
    exists k : nat, (Z.of_nat (length ms + k) < 2 ^ 48)%Z /\ forall o' p ev, spamprob_evidence mem_backend it s
      (fst (run mem_backend it (h ++ replicate k (CLearn s true)) (c_new false ∅ : dobj))) = (o', Ok (p, ev)) ->
    classify D p = spam.
Proof.
  intros H. destruct (H remove_dups two_sides two_msgs (SList old_lunch) dups_ok two_matched two_none old_type old_none ltac:(discriminate)) as (k&Hk&Hc).
  destruct (never_spam remove_dups dups_ok two_sides two_msgs two_matched (SList old_lunch) true k Hk two_none old_type old_none two_hams old_all)
    as (o'&p&ev&E&_&Hn).
  apply Hn. exact (Hc o' p ev E).
Qed.
