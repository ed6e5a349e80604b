(** * Padding a message with strong words (C132) *)
From Coq Require Import String Reals Lra Lia.
From Verif Require Import Py NumModel ClassifierModel TrainSpec TrainProofs ScoreProofs SortProofs ScoreSpec ClueProofs TileProofs CorpusProofs RealModel RealSpec RealProofs ExactProofs ApiProofs ShelveApiProofs
  FloatProofs FloatApiProofs MessageModel OnceSpec OnceProofs OnceCases PadProofs DrownSpec.

Lemma pigeon {T} `{EqDecision T} (l l' : list T) c : NoDup l -> NoDup l' -> length l' <= length l -> c ∈ l' -> c ∉ l ->
  exists v, v ∈ l /\ v ∉ l'.
Proof.
  intros Hl Hl' Hle Hc Hn.
  destruct (decide (Forall (fun v => v ∈ l') l)) as [Hall|Hall].
  - exfalso. rewrite Forall_forall in Hall.
    assert (c :: l ⊆+ l') as Hs.
    { apply NoDup_submseteq; [by constructor|]. intros x [->|Hx]%elem_of_cons; auto. }
    apply submseteq_length in Hs. simpl in Hs. lia.
  - apply not_Forall_Exists in Hall; [|apply _]. apply Exists_exists in Hall as (v&Hv&Hnv). eauto.
Qed.

Section clues.
  Context {A : num} (HA : total_num A) (lk : pyword -> option winfo) (ns nh : Z).

  Lemma pclues_drown it1 it2 pad msg ws (cs2 : list (clue A)) : set_order_ok it1 -> set_order_ok it2 ->
    padded_with pad msg ws -> outweighs (word_prob (A:=A) lk ns nh) pad msg ->
    pclues_uni it2 lk ns nh ws = Ok cs2 -> pclues_uni it1 lk ns nh pad = Ok cs2.
  Proof.
    intros H1 H2 Hpw (vs&Nv&Lv&Hv) E2.
    assert (exists cs1, pclues_uni (A:=A) it1 lk ns nh pad = Ok cs1) as [cs1 E1].
    { revert E2. unfold pclues_uni.
      destruct (rmap (word_clue lk ns nh) (it2 ws)) as [t2|] eqn:Et2; simpl; [|done].
      destruct (rmap_all (word_clue (A:=A) lk ns nh) (it1 pad)) as [t1 Et1].
      { intros w Hw. apply (proj2 (H1 pad)) in Hw.
        assert (w ∈ it2 ws) as Hw2 by (apply H2, Hpw; auto).
        apply rmap_Ok in Et2. apply elem_of_list_lookup in Hw2 as [i Hi].
        destruct (Forall2_lookup_l _ _ _ _ _ Et2 Hi) as (c&_&Hc). eauto. }
      rewrite Et1. simpl.
      assert (NoDup (c_word <$> List.filter significant t1)) as N1.
      { apply NoDup_words_filter. rewrite (rmap_clue_words _ _ _ _ _ Et1). apply H1. }
      assert (NoDup (c_word <$> List.filter significant t2)) as N2.
      { apply NoDup_words_filter. rewrite (rmap_clue_words _ _ _ _ _ Et2). apply H2. }
      unfold sort_clues.
      destruct (any_clash (List.filter significant t2)) eqn:C2; simpl; [done|]. intros _.
      destruct (any_clash (List.filter significant t1)) eqn:C1; simpl; [|eauto]. exfalso.
      apply any_clash_spec in C1; [|done|done]. destruct C1 as (a&b&Ha&Hb&Hk).
      enough (any_clash (List.filter significant t2) = true) by congruence.
      apply any_clash_spec; [done|done|]. exists a, b.
      assert (forall c, c ∈ List.filter significant t1 -> c ∈ List.filter significant t2) as Hsub.
      { intros c. rewrite !elem_of_Lfilter, (rmap_clue_elem _ _ _ _ _ c Et1), (rmap_clue_elem _ _ _ _ _ c Et2).
        rewrite (proj2 (H1 pad) (c_word c)), (proj2 (H2 ws) (c_word c)), (Hpw (c_word c)). tauto. }
      split_and!; auto. }
    rewrite E1. f_equal.
    destruct (pclues_uni_spec HA lk ns nh it1 pad cs1 H1 E1) as (D1&L1&S1&In1&Out1).
    destruct (pclues_uni_spec HA lk ns nh it2 ws cs2 H2 E2) as (D2&L2&S2&In2&Out2).
    (* the clue of a word of [vs] *)
    assert (forall v, v ∈ vs -> exists c : clue A, c_word c = v /\ v ∈ pad /\ word_clue lk ns nh v = Ok c /\ significant c = true /\
      forall d, c_word d ∈ msg -> c_word d ∉ pad -> word_clue lk ns nh (c_word d) = Ok d -> nlt A (c_dist d) (c_dist c) = true) as Hc.
    { intros v Hvv. destruct (Hv v Hvv) as (Hp&p&Ep&Sp&Hlt).
      exists (Clue (strength p) p v (lk v)). split_and!; [done|done|by apply word_clue_total| |].
      - exact Sp.
      - intros d Hd Hnd Ed. apply word_clue_Ok in Ed as (_&_&Pd&->). simpl. by apply (Hlt (c_word d)). }
    assert (length cs1 = 150) as F1.
    { destruct (decide (Forall (fun v => v ∈ c_word <$> cs1) vs)) as [Hall|Hall].
      - rewrite Forall_forall in Hall.
        assert (vs ⊆+ (c_word <$> cs1)) as Hs by by apply NoDup_submseteq.
        apply submseteq_length in Hs. rewrite fmap_length in Hs. unfold MAX_DISCRIMINATORS in L1. lia.
      - apply not_Forall_Exists in Hall; [|apply _]. apply Exists_exists in Hall as (v&Hvv&Hnv).
        destruct (Hc v Hvv) as (c&<-&Hp&Ec&Sc&_). by apply (Out1 c). }
    assert (length cs2 = 150) as F2.
    { destruct (decide (Forall (fun v => v ∈ c_word <$> cs2) vs)) as [Hall|Hall].
      - rewrite Forall_forall in Hall.
        assert (vs ⊆+ (c_word <$> cs2)) as Hs by by apply NoDup_submseteq.
        apply submseteq_length in Hs. rewrite fmap_length in Hs. unfold MAX_DISCRIMINATORS in L2. lia.
      - apply not_Forall_Exists in Hall; [|apply _]. apply Exists_exists in Hall as (v&Hvv&Hnv).
        destruct (Hc v Hvv) as (c&<-&Hp&Ec&Sc&_). apply (Out2 c); [|done..]. apply Hpw. by left. }
    (* the used clues of the padded message are of words of the padding *)
    assert (forall c, c ∈ cs2 -> c_word c ∈ pad) as Hpad.
    { intros d Hd. destruct (In2 d Hd) as (Hw&Ed&Sd). apply Hpw in Hw as [?|Hw]; [done|].
      destruct (decide (c_word d ∈ pad)) as [?|Hn]; [done|exfalso].
      destruct (pigeon vs (c_word <$> cs2) (c_word d)) as (v&Hvv&Hnv); [done|done|rewrite fmap_length; lia| | |].
      { apply elem_of_list_fmap. eauto. }
      { intros Hi. by apply Hn, Hv. }
      destruct (Hc v Hvv) as (c&<-&Hp&Ec&Sc&Hlt).
      destruct (Out2 c) as [_ Hle]; [apply Hpw; by left|done..|].
      pose proof (cle_dist HA _ _ (Hle d Hd)) as Hd1. unfold nle in Hd1.
      rewrite (Hlt d Hw Hn Ed) in Hd1. done. }
    symmetry. apply (sorted_unique clue_leb); [|done|done|].
    { intros x y Hx Hy. apply (clue_anti HA lk ns nh); [apply (In2 x Hx)|apply (In2 y Hy)]. }
    apply submseteq_Permutation_length_eq; [lia|].
    apply NoDup_submseteq; [by eapply NoDup_fmap_1|].
    intros c Hc2. destruct (In2 c Hc2) as (_&Ec&Sc). pose proof (Hpad c Hc2) as Hp.
    destruct (decide (c_word c ∈ c_word <$> cs1)) as [Hi|Hn].
    { apply elem_of_list_fmap in Hi as (c'&Ew&Hc'). destruct (In1 c' Hc') as (_&Ec'&_).
      assert (c = c') as -> by by apply (clue_determined lk ns nh). done. }
    exfalso. destruct (pigeon (c_word <$> cs1) (c_word <$> cs2) (c_word c)) as (v&Hv1&Hv2); [done|done|rewrite !fmap_length; lia| |done|].
    { apply elem_of_list_fmap. eauto. }
    apply elem_of_list_fmap in Hv1 as (c'&->&Hc'). destruct (In1 c' Hc') as (Hp'&Ec'&Sc').
    destruct (Out1 c Hp Ec Hn Sc) as [_ B1]. destruct (Out2 c') as [_ B2]; [apply Hpw; by left|done..|].
    apply Hv2. apply elem_of_list_fmap. exists c. split; [|done].
    by rewrite (clue_anti HA lk ns nh c' c Ec' Ec (B2 c Hc2) (B1 c' Hc')).
  Qed.
End clues.

Lemma score_drown {A : num} (HA : total_num A) it0 it1 it2 h pad msg s r :
  set_order_ok it0 -> set_order_ok it1 -> set_order_ok it2 ->
  let o := fst (run mem_backend it0 h (c_new false ∅ : obj A (gmap pyword winfo))) in
  padded_with (elems pad) (elems msg) (elems s) -> outweighs (spam_probability o) (elems pad) (elems msg) ->
  snd (spamprob_evidence mem_backend it2 s o) = Ok r ->
  snd (spamprob_evidence mem_backend it1 pad o) = Ok r.
Proof.
  intros H0 H1 H2 o Hpw Hout. assert (mgood o) as Hg by apply (reachable_good it0 H0).
  assert (o_bigrams o = Some false) as Hbg by (unfold o; by rewrite run_bigrams).
  destruct (mem_score it1 pad o Hg) as (o1&->&_&_).
  destruct (mem_score it2 s o Hg) as (o2&->&_&_). simpl.
  unfold pscore_evidence. rewrite Hbg. simpl.
  destruct (pclues_uni it2 _ _ _ _) as [c2|e2] eqn:E2; simpl; [|done].
  rewrite (pclues_drown HA (mlook (o_store o)) (o_nspam o) (o_nham o) it1 it2 _ _ _ c2 H1 H2 Hpw Hout E2). done.
Qed.
