(** * Property C73: training with a token stream that raises *)
From Coq Require Import String.
From Verif Require Import Py NumModel ClassifierModel StripModel RaiseModel RaiseProofs TokenModel TokenSpec TokenCases.

(** A stream that does not raise is learned as in C01 - C06. *)
Theorem C73_stream_that_ends : forall (A : num) St (bk : backend St) it ws is_spam (o : obj A St),
  learn_gen bk it (ws, None) is_spam o = learn bk it (SIter ws) is_spam o /\
  unlearn_gen bk it (ws, None) is_spam o = unlearn bk it (SIter ws) is_spam o.
Proof. exact @gen_ok. Qed.
Print Assumptions C73_stream_that_ends.

Theorem C73_failed_learn_counts_the_message :
  forall (A : num) St (bk : backend St) it ts e is_spam (o : obj A St), o_bigrams o <> None ->
  exists o', learn_gen bk it (ts, Some e) is_spam o = (o', Err e) /\
    o_nspam o' = (o_nspam o + if is_spam then 1 else 0)%Z /\ o_nham o' = (o_nham o + if is_spam then 0 else 1)%Z /\
    o_store o' = o_store o /\ o_bigrams o' = o_bigrams o /\ o_cache o' = ∅.
Proof. exact @learn_gen_raises. Qed.
Print Assumptions C73_failed_learn_counts_the_message.

Theorem C73_failed_unlearn_uncounts_the_message :
  forall (A : num) St (bk : backend St) it ts e is_spam (o : obj A St), o_bigrams o <> None ->
  exists o' e', unlearn_gen bk it (ts, Some e) is_spam o = (o', Err e') /\
    o_store o' = o_store o /\ o_bigrams o' = o_bigrams o /\ o_cache o' = ∅ /\
    let n := if is_spam then o_nspam o else o_nham o in
    ((n <= 0)%Z -> e' = ValueError /\ o_nspam o' = o_nspam o /\ o_nham o' = o_nham o) /\
    ((0 < n)%Z -> e' = e /\ o_nspam o' = (o_nspam o - if is_spam then 1 else 0)%Z /\
                  o_nham o' = (o_nham o - if is_spam then 0 else 1)%Z).
Proof. exact @unlearn_gen_raises. Qed.
Print Assumptions C73_failed_unlearn_uncounts_the_message.

(** Trying again counts the message again. *)
Theorem C73_every_attempt_counts :
  forall (A : num) St (bk : backend St) it n ts e is_spam (o : obj A St), o_bigrams o <> None ->
  o_nspam (retry bk it n (ts, Some e) is_spam o) = (o_nspam o + if is_spam then Z.of_nat n else 0)%Z /\
  o_nham (retry bk it n (ts, Some e) is_spam o) = (o_nham o + if is_spam then 0 else Z.of_nat n)%Z /\
  o_store (retry bk it n (ts, Some e) is_spam o) = o_store o.
Proof. exact @retry_total. Qed.
Print Assumptions C73_every_attempt_counts.

(** Undoing a failed call with a call that fails as well restores the totals. *)
Theorem C73_failed_undo_restores_the_totals :
  forall (A : num) St (bk : backend St) it ts e ts' e' is_spam (o : obj A St),
  o_bigrams o <> None -> (0 <= o_nspam o)%Z -> (0 <= o_nham o)%Z ->
  let o2 := (unlearn_gen bk it (ts', Some e') is_spam (learn_gen bk it (ts, Some e) is_spam o).1).1 in
  o_nspam o2 = o_nspam o /\ o_nham o2 = o_nham o /\ o_store o2 = o_store o.
Proof. exact @failed_undo. Qed.
Print Assumptions C73_failed_undo_restores_the_totals.

(** A message with a part that cannot be tokenized *)
Theorem C73_untokenizable_body_is_counted :
  forall (A : num) St (bk : backend St) it a2b parts is_spam (o : obj A St),
  o_bigrams o <> None -> Exists part_raises parts ->
  exists o', learn_gen bk it (tokenize_body a2b parts) is_spam o = (o', Err TypeError) /\
    o_nspam o' = (o_nspam o + if is_spam then 1 else 0)%Z /\ o_nham o' = (o_nham o + if is_spam then 0 else 1)%Z /\
    o_store o' = o_store o.
Proof. exact @body_raises_counts. Qed.
Print Assumptions C73_untokenizable_body_is_counted.

Theorem C73_failed_learn_changes_nothing_refuted : forall (A : num) it,
  ~ forall g is_spam (o o' : obj A (gmap pyword winfo)) e,
  o_bigrams o <> None -> learn_gen mem_backend it g is_spam o = (o', Err e) -> o_nspam o' = o_nspam o /\ o_nham o' = o_nham o.
Proof. exact not_atomic. Qed.
Print Assumptions C73_failed_learn_changes_nothing_refuted.

(** The plain class learning one message with an HTML part *)
Example C73_case (A : num) : exists o',
  learn_gen mem_backend remove_dups (tokenize_body (fun _ => Err ValueError) [PBytes (str "hello"); PBytes (str "<b>bold</b>")])
    true (c_new false ∅ : obj A (gmap pyword winfo)) = (o', Err TypeError) /\ o_nspam o' = 1%Z.
Proof.
  destruct (body_raises_counts (A := A) mem_backend remove_dups (fun _ => Err ValueError) [PBytes (str "hello"); PBytes (str "<b>bold</b>")] true (c_new false ∅))
    as (o' & H1 & H2 & _); [done| |by exists o'].
  rewrite !Exists_cons. right; left. apply computes_untokenizable. by vm_compute.
Qed.
