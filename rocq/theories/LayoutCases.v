(** * Two layouts of one text *)
From Coq Require Import String.
From Verif Require Import Py RegexSpec StripModel StripSpec TokenModel TokenSpec TokenProofs TokenCases MessageModel HeadModel TreeModel TreeSpec TreeCases LayoutSpec.

Lemma plain_computes b ts : Forall (fun c => c ∉ str "<&=:") b -> tokenize_payload b = (ts, None) -> plain_body b.
Proof.
  intros H E. split; [done|]. intros t Ht. destruct (computes_tokenizable b ts E) as (t0&?&?&?&Hl&_&_&_&Hu&_).
  apply lower_unique in Ht. apply lower_unique in Hl. by subst.
Qed.

Definition narrow : codes := str "Please CALL
me   today

please
call".
Definition wide : codes := str "today please call me".

Lemma layouts : plain_body narrow /\ plain_body wide /\ same_text narrow wide /\ narrow <> wide.
Proof.
  split_and!.
  - eapply plain_computes; [apply (bool_decide_unpack _); by vm_compute|by vm_compute].
  - eapply plain_computes; [apply (bool_decide_unpack _); by vm_compute|by vm_compute].
  - exists (blower narrow), (blower wide), (words_of (blower narrow)), (words_of (blower wide)).
    split_and!; [apply blower_spec..|apply words_of_spec|apply words_of_spec|].
    assert (Forall (fun w => w ∈ words_of (blower wide)) (words_of (blower narrow)) /\ Forall (fun w => w ∈ words_of (blower narrow)) (words_of (blower wide))) as [H1 H2].
    { split; apply (bool_decide_unpack _); by vm_compute. }
    intros w. split; intros Hw; [by apply (proj1 (Forall_forall _ _) H1)|by apply (proj1 (Forall_forall _ _) H2)].
  - by vm_compute.
Qed.

Definition note_of (b : codes) : part := letter_with [Part (info "text/plain") [] (Leaf (PBytes b)); attachment "%PDF"].

Lemma notes_laid_out : laid_out (note_of narrow) (note_of wide).
Proof.
  assert (laid_out (Part (info "text/plain") [] (Leaf (PBytes narrow))) (Part (info "text/plain") [] (Leaf (PBytes wide)))) as H.
  { constructor. intros _. right. exists narrow, wide. destruct layouts as (?&?&?&_). by split_and!. }
  assert (laid_out (attachment "%PDF") (attachment "%PDF")) as H' by (constructor; intros _; by left).
  constructor; intros p [->|[->|Hp%elem_of_nil]%elem_of_cons]%elem_of_cons; try done; eexists; (split; [|eassumption]); [left|right; left|left|right; left].
Qed.
