(** * Texts with the same sequence of words (C116) *)
From Coq Require Import String.
From Verif Require Import Py NumModel ClassifierModel TrainSpec TrainProofs ScoreSpec RegexSpec StripModel StripSpec StripProofs RaiseModel RaiseProofs
  TokenModel TokenSpec TokenProofs TokenCases MessageModel HeadModel TreeModel TreeSpec TreeProofs TreeCases SeenSpec SeenProofs LayoutSpec LayoutProofs LayoutCases SeqSpec.

Lemma sequence_payload b b' : plain_body b -> plain_body b' -> same_sequence b b' ->
  ((tokenize_payload b).2 = None <-> (tokenize_payload b').2 = None) /\
  ((tokenize_payload b).2 = None -> tokenize_payload b = tokenize_payload b').
Proof.
  intros Hb Hb' (t & t' & ws & L & L' & W & W').
  destruct (plain_words b t ws Hb L W) as [N1 _]. destruct (plain_words b' t' ws Hb' L' W') as [N2 _].
  split; [by rewrite N1, N2|]. intros Hn. rewrite N1 in Hn.
  assert (exists wss, Forall2 word_tokens ws wss) as (wss & Hwss).
  { clear - Hn. induction ws as [|w ws IH]; [by exists []|]. destruct IH as (wss & Hw); [intros u Hu; apply Hn; by right|].
    destruct (good_word_tokens w) as (ts & _ & Ht); [apply Hn; left|]. exists (ts :: wss). by constructor. }
  assert (Forall (fun w => ~ bad_word w) ws) as Hg by by apply Forall_forall.
  destruct Hb as [Hc Hu], Hb' as [Hc' Hu'].
  rewrite (plain_text b t ws wss) by auto. by rewrite (plain_text b' t' ws wss) by auto.
Qed.

Lemma sequence_same_text b b' : same_sequence b b' -> same_text b b'.
Proof. intros (t & t' & ws & ? & ? & ? & ?). by exists t, t', ws, ws. Qed.

Section messages.
  Context (U : unicode) (E : mailpkg) (o : topts) (a2b : codes -> res codes).

  Lemma textparts_one order x h b : parts_order_ok order -> text_type x ->
    textparts order (Part x h (Leaf (PBytes b))) = [Part x h (Leaf (PBytes b))].
  Proof.
    intros Ho Hx. unfold textparts. cbn [walk]. rewrite filter_cons_True by by apply is_text_spec.
    rewrite filter_nil. apply Permutation_singleton_r, Ho.
  Qed.

  Lemma sequence_tokens order order' x h h' b b' : parts_order_ok order -> parts_order_ok order' -> count_all o = false -> text_type x ->
    seen (mine_received o) h = seen (mine_received o) h' -> plain_body b -> plain_body b' -> same_sequence b b' ->
    let g := tokenize_message U E order o a2b (Part x h (Leaf (PBytes b))) in
    let g' := tokenize_message U E order' o a2b (Part x h' (Leaf (PBytes b'))) in
    g = g' \/ (g.2 <> None /\ g'.2 <> None).
  Proof.
    intros Ho Ho' Hc Hx Hs Hb Hb' Hq g g'. destruct (sequence_payload b b' Hb Hb' Hq) as [H1 H2].
    destruct (decide ((tokenize_payload b).2 = None)) as [Hn|Hn].
    - left. unfold g, g', tokenize_message. cbn [part_headers]. rewrite (call_seen U E o a2b _ h h' _ Hc Hs), !textparts_one by done.
      unfold tokenizer_call. do 3 f_equal. cbn. by rewrite (H2 Hn).
    - right. unfold g, g', tokenize_message. rewrite !textparts_one by done. cbn [fmap list_fmap].
      split; intros Hm; apply (call_mem U E o a2b) in Hm as (_ & _ & Hm & _).
      + specialize (Hm (PBytes b)). cbn in Hm. apply Hn, Hm. left.
      + specialize (Hm (PBytes b')). cbn in Hm. apply Hn, H1, Hm. left.
  Qed.

  Lemma raised_gens {A : num} {St} (bk : backend St) it (g g' : gen) (is_spam : bool) (ob : obj A St) :
    g = g' \/ (g.2 <> None /\ g'.2 <> None) ->
    (learn_gen bk it g is_spam ob).1 = (learn_gen bk it g' is_spam ob).1 /\
    (unlearn_gen bk it g is_spam ob).1 = (unlearn_gen bk it g' is_spam ob).1 /\
    same_result (learn_gen bk it g is_spam ob).2 (learn_gen bk it g' is_spam ob).2 /\
    same_result (unlearn_gen bk it g is_spam ob).2 (unlearn_gen bk it g' is_spam ob).2 /\
    same_result (score_gen bk it g ob).2 (score_gen bk it g' ob).2.
  Proof.
    intros [->|[H H']].
    - split_and!; [done..| | |]; match goal with |- same_result ?x _ => by destruct x end.
    - destruct g as [ts [e|]]; [|done]. destruct g' as [ts' [e'|]]; [|done]. clear H H'.
      destruct (o_bigrams ob) as [bg|] eqn:Eb.
      2:{ unfold learn_gen, unlearn_gen. by rewrite Eb. }
      assert (o_bigrams ob <> None) as Hb by by rewrite Eb.
      destruct (learn_gen_raises bk it ts e is_spam ob Hb) as (o1 & -> & A1 & A2 & A3 & A4 & A5).
      destruct (learn_gen_raises bk it ts' e' is_spam ob Hb) as (o2 & -> & B1 & B2 & B3 & B4 & B5).
      destruct (unlearn_gen_raises bk it ts e is_spam ob Hb) as (o3 & e3 & -> & C1 & C2 & C3 & C4 & C5).
      destruct (unlearn_gen_raises bk it ts' e' is_spam ob Hb) as (o4 & e4 & -> & D1 & D2 & D3 & D4 & D5).
      cbn [fst snd]. split_and!; try done.
      + destruct o1, o2; simpl in *; congruence.
      + destruct (Z.le_gt_cases (if is_spam then o_nspam ob else o_nham ob) 0) as [Hz|Hz].
        * destruct (C4 Hz) as (_ & ? & ?), (D4 Hz) as (_ & ? & ?). destruct o3, o4; simpl in *; congruence.
        * destruct (C5 Hz) as (_ & ? & ?), (D5 Hz) as (_ & ? & ?). destruct o3, o4; simpl in *; congruence.
  Qed.

  Lemma sequence_calls {A : num} {St} (bk : backend St) it order order' x h h' b b' is_spam (ob : obj A St) :
    parts_order_ok order -> parts_order_ok order' -> count_all o = false -> text_type x ->
    seen (mine_received o) h = seen (mine_received o) h' -> plain_body b -> plain_body b' -> same_sequence b b' ->
    let g := tokenize_message U E order o a2b (Part x h (Leaf (PBytes b))) in
    let g' := tokenize_message U E order' o a2b (Part x h' (Leaf (PBytes b'))) in
    (learn_gen bk it g is_spam ob).1 = (learn_gen bk it g' is_spam ob).1 /\
    (unlearn_gen bk it g is_spam ob).1 = (unlearn_gen bk it g' is_spam ob).1 /\
    same_result (learn_gen bk it g is_spam ob).2 (learn_gen bk it g' is_spam ob).2 /\
    same_result (unlearn_gen bk it g is_spam ob).2 (unlearn_gen bk it g' is_spam ob).2 /\
    same_result (score_gen bk it g ob).2 (score_gen bk it g' ob).2.
  Proof. intros. apply raised_gens. by apply sequence_tokens. Qed.
End messages.

(** ** Cases *)
Definition wrapped : codes := str "Please CALL
me   today".
Definition on_one_line : codes := str "please call me TODAY".
Definition backwards : codes := str "today me call please".
Definition slip (b : codes) : part := Part (info "text/plain") [] (Leaf (PBytes b)).

Lemma wrapped_case : plain_body wrapped /\ plain_body on_one_line /\ same_sequence wrapped on_one_line /\ wrapped <> on_one_line /\
  text_type (info "text/plain") /\
  (tokenize_message HeadCases.ascii HeadCases.plain (fun l => l) default_opts no_a2b (slip wrapped)).2 = None.
Proof.
  split_and!.
  - eapply plain_computes; [apply (bool_decide_unpack _); by vm_compute|by vm_compute].
  - eapply plain_computes; [apply (bool_decide_unpack _); by vm_compute|by vm_compute].
  - exists (blower wrapped), (blower on_one_line), (words_of (blower wrapped)). split_and!; [apply blower_spec..|apply words_of_spec|].
    replace (words_of (blower wrapped)) with (words_of (blower on_one_line)) by by vm_compute. apply words_of_spec.
  - by vm_compute.
  - apply (is_text_spec (slip wrapped)). by vm_compute.
  - by vm_compute.
Qed.

Lemma order_counts_with_bigrams :
  ~ forall (it : set_order) (b b' : codes), set_order_ok it -> plain_body b -> plain_body b' -> same_text b b' ->
    let learned b := (learn_gen mem_backend it (tokenize_message HeadCases.ascii HeadCases.plain (fun l => l) default_opts no_a2b (slip b)) true
                        (c_new true ∅ : obj RealModel.exact (gmap pyword winfo))).1 in
    same_training (learned b) (learned b').
Proof.
  intros H. destruct (H (fun l => remove_dups l) on_one_line backwards) as (_ & _ & Hr & _).
  - intros l. split; [apply NoDup_remove_dups|]. intros w. apply elem_of_remove_dups.
  - apply wrapped_case.
  - eapply plain_computes; [apply (bool_decide_unpack _); by vm_compute|by vm_compute].
  - exists (blower on_one_line), (blower backwards), (words_of (blower on_one_line)), (words_of (blower backwards)).
    split_and!; [apply blower_spec..|apply words_of_spec|apply words_of_spec|].
    assert (Forall (fun w => w ∈ words_of (blower backwards)) (words_of (blower on_one_line)) /\ Forall (fun w => w ∈ words_of (blower on_one_line)) (words_of (blower backwards))) as [H1 H2].
    { split; apply (bool_decide_unpack _); by vm_compute. }
    intros w. split; intros Hw; [by apply (proj1 (Forall_forall _ _) H1)|by apply (proj1 (Forall_forall _ _) H2)].
  - vm_compute in Hr. done.
Qed.
