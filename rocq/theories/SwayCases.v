(** * Concrete cases for C118 to C120 *)
From Coq Require Import String.
From Verif Require Import Py NumModel ClassifierModel TrainSpec ScoreSpec RealModel PadCases.

Lemma other_word : ~ tokens_of false (SList [sw "the"; sw "dinner"]) (sw "pills").
Proof.
  change (~ sw "pills" ∈ [sw "the"; sw "dinner"]). apply (bool_decide_unpack _). by vm_compute.
Qed.

Lemma twice_matched : matched false (two_sides ++ two_sides) (two_msgs ++ two_msgs).
Proof.
  pose proof two_matched as H.
  apply (matched_learn false _ _ (SList [sw "the"; sw "pills"]) true [sw "the"; sw "pills"]) in H; [|done].
  apply (matched_learn false _ _ (SList [sw "the"; sw "lunch"]) false [sw "the"; sw "lunch"]) in H; [|done]. exact H.
Qed.

Lemma two_words : Forall (fun m => WNone ∉ m.1) two_msgs.
Proof. apply (bool_decide_unpack _). by vm_compute. Qed.

Lemma padded_type : one_type false (elems (SList padded)).
Proof.
  intros w1 w2. cbn [elems]. unfold padded. rewrite !elem_of_cons, !elem_of_nil.
  intros [->|[->|[->|[->|[]]]]] [->|[->|[->|[->|[]]]]]; done.
Qed.
