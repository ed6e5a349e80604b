(** * Proofs about training with a generator that raises *)
From Coq Require Import String Lia.
From Verif Require Import Py NumModel ClassifierModel StripModel RaiseModel.

Section train.
  Context {A : num} {St : Type}.
  Context (bk : backend St) (it : set_order).
  Notation obj := (obj A St).

  Lemma learn_gen_ok ws is_spam (o : obj) : learn_gen bk it (ws, None) is_spam o = learn bk it (SIter ws) is_spam o.
  Proof. unfold learn_gen, learn. by destruct (o_bigrams o) as [[]|]. Qed.
  Lemma unlearn_gen_ok ws is_spam (o : obj) : unlearn_gen bk it (ws, None) is_spam o = unlearn bk it (SIter ws) is_spam o.
  Proof. unfold unlearn_gen, unlearn. by destruct (o_bigrams o) as [[]|]. Qed.

  Lemma gen_ok ws is_spam (o : obj) : learn_gen bk it (ws, None) is_spam o = learn bk it (SIter ws) is_spam o /\ unlearn_gen bk it (ws, None) is_spam o = unlearn bk it (SIter ws) is_spam o.
  Proof. split; [apply learn_gen_ok|apply unlearn_gen_ok]. Qed.

  Lemma learn_gen_raises ts e is_spam (o : obj) : o_bigrams o <> None ->
    exists o', learn_gen bk it (ts, Some e) is_spam o = (o', Err e) /\
      o_nspam o' = (o_nspam o + if is_spam then 1 else 0)%Z /\ o_nham o' = (o_nham o + if is_spam then 0 else 1)%Z /\
      o_store o' = o_store o /\ o_bigrams o' = o_bigrams o /\ o_cache o' = ∅.
  Proof.
    intros HB. unfold learn_gen. destruct (o_bigrams o) as [b|] eqn:E; [|done].
    exists (add_gen (A := A) bk it (ts, Some e) is_spam o).1.
    destruct b, is_spam; simpl; rewrite ?Z.add_0_r, E; done.
  Qed.

  Lemma unlearn_gen_raises ts e is_spam (o : obj) : o_bigrams o <> None ->
    exists o' e', unlearn_gen bk it (ts, Some e) is_spam o = (o', Err e') /\
      o_store o' = o_store o /\ o_bigrams o' = o_bigrams o /\ o_cache o' = ∅ /\
      let n := if is_spam then o_nspam o else o_nham o in
      ((n <= 0)%Z -> e' = ValueError /\ o_nspam o' = o_nspam o /\ o_nham o' = o_nham o) /\
      ((0 < n)%Z -> e' = e /\ o_nspam o' = (o_nspam o - if is_spam then 1 else 0)%Z /\
                    o_nham o' = (o_nham o - if is_spam then 0 else 1)%Z).
  Proof.
    intros HB. unfold unlearn_gen. destruct (o_bigrams o) as [b|] eqn:E; [|done].
    assert (Hr : (match b with true => remove_gen bk it (enhance_gen (ts, Some e)) is_spam o
      | false => remove_gen bk it (ts, Some e) is_spam o end) = remove_gen bk it (ts, Some e) is_spam o) by by destruct b.
    rewrite Hr. clear Hr. unfold remove_gen. cbv zeta.
    destruct is_spam; simpl.
    - destruct (Z.leb_spec (o_nspam o) 0); eexists _, _; (split; [done|]); simpl; (split_and!; [done|done|done| |]);
        intros ?; try lia; split_and!; try done; lia.
    - destruct (Z.leb_spec (o_nham o) 0); eexists _, _; (split; [done|]); simpl; (split_and!; [done|done|done| |]);
        intros ?; try lia; split_and!; try done; lia.
  Qed.

  Lemma retry_total n ts e is_spam : forall (o : obj), o_bigrams o <> None ->
    o_nspam (retry bk it n (ts, Some e) is_spam o) = (o_nspam o + if is_spam then Z.of_nat n else 0)%Z /\
    o_nham (retry bk it n (ts, Some e) is_spam o) = (o_nham o + if is_spam then 0 else Z.of_nat n)%Z /\
    o_store (retry bk it n (ts, Some e) is_spam o) = o_store o.
  Proof.
    induction n as [|n IH]; intros o HB.
    - simpl. destruct is_spam; split_and!; lia || done.
    - cbn [retry]. destruct (learn_gen_raises ts e is_spam o HB) as (o' & -> & H1 & H2 & H3 & H4 & _). cbn [fst].
      destruct (IH o') as (K1 & K2 & K3); [by rewrite H4|]. rewrite K1, K2, K3, H1, H2, H3.
      destruct is_spam; split_and!; lia || done.
  Qed.

  (** The message total after a failed call and a failed call to undo it *)
  Lemma failed_undo ts e ts' e' is_spam (o : obj) : o_bigrams o <> None -> (0 <= o_nspam o)%Z -> (0 <= o_nham o)%Z ->
    let o2 := (unlearn_gen bk it (ts', Some e') is_spam (learn_gen bk it (ts, Some e) is_spam o).1).1 in
    o_nspam o2 = o_nspam o /\ o_nham o2 = o_nham o /\ o_store o2 = o_store o.
  Proof.
    intros HB Hs Hh. cbv zeta. destruct (learn_gen_raises ts e is_spam o HB) as (o1 & -> & H1 & H2 & H3 & H4 & _). cbn [fst].
    destruct (unlearn_gen_raises ts' e' is_spam o1) as (o2 & e2 & -> & K1 & _ & _ & _ & K2); [by rewrite H4|]. cbn [fst].
    destruct K2 as (_ & K2 & K3); [destruct is_spam; lia|]. rewrite K1, K2, K3, H1, H2. destruct is_spam; split_and!; lia || done.
  Qed.
End train.


(** ** Bodies that cannot be tokenized *)
From Verif Require Import StripSpec TokenModel TokenSpec TokenProofs TokenCases.

Lemma body_raises_counts {A : num} {St} (bk : backend St) it a2b parts is_spam (o : obj A St) :
  o_bigrams o <> None -> Exists part_raises parts ->
  exists o', learn_gen bk it (tokenize_body a2b parts) is_spam o = (o', Err TypeError) /\
    o_nspam o' = (o_nspam o + if is_spam then 1 else 0)%Z /\ o_nham o' = (o_nham o + if is_spam then 0 else 1)%Z /\
    o_store o' = o_store o.
Proof.
  intros HB HE. pose proof (proj2 (body_outcome a2b parts) HE) as E. destruct (tokenize_body a2b parts) as [ts e].
  simpl in E. subst e. destruct (learn_gen_raises bk it ts TypeError is_spam o HB) as (o' & H1 & H2 & H3 & H4 & _).
  by exists o'.
Qed.

Lemma not_atomic (A : num) it : ~ forall g is_spam (o o' : obj A (gmap pyword winfo)) e,
  o_bigrams o <> None -> learn_gen mem_backend it g is_spam o = (o', Err e) -> o_nspam o' = o_nspam o /\ o_nham o' = o_nham o.
Proof.
  intros H.
  destruct (body_raises_counts (A := A) mem_backend it (fun _ => Err ValueError) [PBytes (str "<b>bold</b>")] true (c_new false ∅))
    as (o' & E & H1 & _).
  - done.
  - rewrite Exists_cons. left. apply computes_untokenizable. by vm_compute.
  - apply H in E as [E _]; [|done]. rewrite E in H1. simpl in H1. lia.
Qed.
