(** * Byte tokens and bigrams in double precision *)
From Coq Require Import Reals Lra Lia String.
From Verif Require Import Py NumModel ClassifierModel TrainSpec TrainProofs ScoreProofs ScoreSpec ClueProofs TileProofs
  RealModel RealSpec RealProofs ExactProofs ApiProofs FloatProofs FloatApiProofs OnceCases PairSpec PairProofs PairCases
  ExcessSpec ExcessProofs.

Lemma tokens_elem s w : tokens_of true s w -> w ∈ elems s \/ exists x y, w = bigram x y.
Proof.
  intros Ht. destruct s as [l|l]; simpl in *.
  - destruct Ht as [(i&x&Hi&_&->)|(i&x&y&_&_&->)]; [left; by eapply elem_of_list_lookup_2|right; by eexists _, _].
  - destruct Ht as [(x&y&z&Hx&_&_&[->| ->])|(k&x&y&z&_&Hx&_&_&[->| ->])];
      first [left; by eapply elem_of_list_lookup_2|right; by eexists _, _].
Qed.

(** ** Byte tokens and bigrams *)
Section bytes.
  Context {M : machine} (it : set_order) (Hit : set_order_ok it).
  Notation dobj := (obj (mnum M) (gmap pyword winfo)).

  Lemma bytes_bi s s2 b w1 x y : Forall (fun w => exists t, w = WBytes t) (elems s) -> elems s2 = elems s ->
    w1 ∈ elems s -> tokens_of true s w1 ->
    (exists i, elems s !! i = Some x /\ elems s !! (i + 1)%nat = Some y) -> tokens_of true s (bigram x y) ->
    snd (spamprob_evidence mem_backend it s2 (fst (run mem_backend it [CLearn s b] (c_new true ∅ : dobj)))) = Err TypeError.
  Proof.
    intros Hby E2 Hw1 Ht1 (i&Hx&Hy) Ht2.
    assert (matched true [CLearn s b] [(toks true s, b)]) as Hm by apply (learned_matched_bi true [] [] s b (matched_nil _)).
    assert (Z.of_nat (length [(toks true s, b)]) < 2 ^ 48)%Z as Hb by done.
    pose proof (proj2 (toks_spec true s w1) Ht1) as K1. pose proof (proj2 (toks_spec true s _) Ht2) as K2.
    apply (type_error mnum_total it Hit true [CLearn s b] s2).
    - apply mnum_sane.
    - apply (none_unknown it Hit). intros s' b' Hs Ht. apply elem_of_list_singleton in Hs. injection Hs as -> ->.
      rewrite Forall_forall in Hby. apply tokens_elem in Ht as [Ht|(x'&y'&E)]; [|done]. by destruct (Hby _ Ht).
    - intros w _. destruct (matched_spam_probability it Hit true _ _ Hm Hb w) as (q&Hq&_). by exists q.
    - destruct (matched_spam_probability it Hit true _ _ Hm Hb w1) as (q&Hq&_).
      exists w1, (bigram x y), q. rewrite E2. split_and!.
      + simpl. apply elem_of_list_lookup in Hw1 as [j Hj]. exists [Z.of_nat j]. left. by exists j.
      + simpl. exists [Z.of_nat i; Z.of_nat (S i)]. right. exists i, x, y. rewrite Nat.add_1_r in Hy. done.
      + rewrite Forall_forall in Hby. by destruct (Hby _ Hw1) as [t ->].
      + done.
      + destruct (matched_view it Hit true _ _ Hm) as (T1&T2&T3). revert Hq. unfold spam_probability.
        rewrite !T3. unfold expected_record. cbn [containing].
        rewrite !bool_decide_eq_true_2 by done. done.
      + apply (pair_strong it Hit [CLearn s b] _ Hm Hb b w1 q); [| |done]; cbn [containing];
          rewrite bool_decide_eq_true_2 by done; by destruct b.
  Qed.

  Lemma bytes_list l s2 b : Forall (fun w => exists t, w = WBytes t) l -> 2 <= length l -> elems s2 = l ->
    snd (spamprob_evidence mem_backend it s2 (fst (run mem_backend it [CLearn (SList l) b] (c_new true ∅ : dobj)))) = Err TypeError.
  Proof.
    intros Hby Hl E2. destruct l as [|x [|y l]]; [simpl in Hl; lia|simpl in Hl; lia|].
    apply (bytes_bi (SList (x :: y :: l)) s2 b x x y); try done.
    - simpl. left.
    - left. exists 0, x. simpl. split_and!; [done|lia|done].
    - by exists 0.
    - right. by exists 0, x, y.
  Qed.

  Lemma bytes_iter l s2 b : Forall (fun w => exists t, w = WBytes t) l -> 7 <= length l -> elems s2 = l ->
    snd (spamprob_evidence mem_backend it s2 (fst (run mem_backend it [CLearn (SIter l) b] (c_new true ∅ : dobj)))) = Err TypeError.
  Proof.
    intros Hby Hl E2.
    destruct (lookup_lt_is_Some_2 l 4) as [w Hw]; [lia|]. destruct (lookup_lt_is_Some_2 l 5) as [x Hx]; [lia|].
    destruct (lookup_lt_is_Some_2 l 6) as [y Hy]; [lia|].
    apply (bytes_bi (SIter l) s2 b w x y); try done.
    - by eapply elem_of_list_lookup_2.
    - right. exists 1, w, x, y. split_and!; [done|done|done|done|by left].
    - by exists 5.
    - right. exists 1, w, x, y. split_and!; [done|done|done|done|by right].
  Qed.
End bytes.
