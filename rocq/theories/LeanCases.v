(** * Cases for words on one side and moved messages (C123) *)
From Coq Require Import Reals Lra Lia String.
From Verif Require Import Py NumModel ClassifierModel TrainSpec TrainProofs ScoreSpec RealModel RealProofs FloatApiProofs MessageModel
  PadCases ObserveModel ObserveSpec LeanSpec LeanProofs ShelveApiProofs.

Definition lunch : list pyword := [sw "the"; sw "lunch"; sw "weather"].

Lemma lunch_leans w : w ∈ lunch -> leans false two_msgs w.
Proof.
  unfold lunch. rewrite !elem_of_cons, elem_of_nil. intros [->|[->|[->|[]]]]; by vm_compute.
Qed.

Lemma pills_do_not : ~ leans false two_msgs (sw "pills").
Proof. vm_compute. intros H. by apply H. Qed.

(** Corpus 0 is watched by a ham trainer, corpus 1 by a spam trainer. *)
Definition desk : program := Program
  (fun r => Some [N.of_nat r]) (fun _ => true) (fun _ => (lunch, None))
  (fun _ i => match i with O => [Watcher 0 false] | _ => [Watcher 0 true] end).

Definition at_desk {A : num} (it : set_order) : state A (gmap pyword winfo) :=
  State (fun _ => ∅) (fun _ => fst (run mem_backend it two_sides (c_new false ∅))) (fun _ => None).

Lemma lunch_one_type : one_type false lunch.
Proof.
  intros w1 w2. unfold lunch. rewrite !elem_of_cons, !elem_of_nil.
  intros [->|[->|[->|[]]]] [->|[->|[->|[]]]]; done.
Qed.

Lemma lunch_none : WNone ∉ lunch.
Proof. unfold lunch. rewrite !elem_of_cons, elem_of_nil. intros [H|[H|[H|[]]]]; discriminate H. Qed.

Lemma two_none : Forall (fun m => WNone ∉ m.1) two_msgs.
Proof.
  unfold two_msgs. repeat constructor; cbn [fst]; rewrite !elem_of_cons, elem_of_nil; intros [H|[H|[]]]; discriminate H.
Qed.

Lemma two_totals : (total false two_msgs <= 2 * total true two_msgs)%Z.
Proof. change (1 <= 2 * 1)%Z. lia. Qed.

Lemma desk_class {A : num} it : s_class (at_desk it : state A _) 0 = fst (run mem_backend it two_sides (c_new false ∅ : obj A (gmap pyword winfo))).
Proof. reflexivity. Qed.

Lemma desk_moved {M : machine} :
  exists q ev o', spamprob_evidence mem_backend remove_dups (SIter lunch)
    (s_class (run_ocalls mem_backend remove_dups desk [OAdd 0 0 None true; ORemove 0 0 true; OAdd 1 0 None true] (at_desk remove_dups : state D _)).1 0)
    = (o', Ok (q, ev)) /\ classify D q <> spam.
Proof.
  destruct (moved_not_spam remove_dups dups_ok desk 0 1 0 (Watcher 0 false) (Watcher 0 true) two_sides two_msgs (at_desk remove_dups : state D _)
    eq_refl eq_refl eq_refl eq_refl eq_refl eq_refl (conj eq_refl eq_refl) two_matched eq_refl two_none (desk_class remove_dups) lunch_none lunch_one_type lunch_leans two_totals)
    as (_&o'&q&ev&E&_&Hc).
  exists q, ev, o'. split; [exact E|exact Hc].
Qed.

Lemma moved_refuted {M : machine} :
  ~ forall it (p : program) i j r (tham tspam : watcher) h ms (s : state D (gmap pyword winfo)) o' q ev, set_order_ok it ->
  t_spam tham = false -> t_spam tspam = true -> t_class tham = t_class tspam ->
  p_receivers p Added i = [tham] -> p_receivers p Removed i = [tham] -> p_receivers p Added j = [tspam] ->
  trainable p r -> matched false h ms ->
  s_class s (t_class tspam) = fst (run mem_backend it h (c_new false ∅ : dobj)) ->
  let s' := (run_ocalls mem_backend it p [OAdd i r None true; ORemove i r true; OAdd j r None true] s).1 in
  spamprob_evidence mem_backend it (SIter (p_tok p r).1) (s_class s' (t_class tspam)) = (o', Ok (q, ev)) ->
  classify D q = spam.
Proof.
  intros H. destruct desk_moved as (q&ev&o'&E&Hc). apply Hc.
  exact (H remove_dups desk 0 1 0 (Watcher 0 false) (Watcher 0 true) two_sides two_msgs (at_desk remove_dups) o' q ev dups_ok
    eq_refl eq_refl eq_refl eq_refl eq_refl eq_refl (conj eq_refl eq_refl) two_matched (desk_class remove_dups) E).
Qed.
