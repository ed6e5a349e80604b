(** * Learning a message once with bigrams: cases *)
From Coq Require Import Reals Lra Lia String.
From Flocq Require Import Core.
From Verif Require Import Py NumModel ClassifierModel TrainSpec TrainProofs ScoreProofs
  SortProofs ScoreSpec ClueProofs TileProofs RealModel RealSpec
  RealProofs ExactProofs ApiProofs FloatProofs FloatApiProofs MessageModel MessageProofs MessageCases
  OnceProofs OnceSpec OnceCases PairSpec PairProofs.
Local Open Scope R_scope.

Lemma learned_matched_bi bg h ms s b : matched bg h ms -> matched bg (h ++ [CLearn s b]) ((toks bg s, b) :: ms).
Proof. intros Hm. apply matched_learn; [done|]. intros w. apply toks_spec. Qed.

Lemma plain_token s w : tokens_of true s w -> plain_word w -> w ∈ elems s.
Proof.
  intros Ht Hp. destruct s as [l|l]; simpl in *.
  - destruct Ht as [(i&x&Hi&_&->)|(i&x&y&_&_&->)]; [by eapply elem_of_list_lookup_2|by destruct (Hp x y)].
  - destruct Ht as [(x&y&z&Hx&_&_&[->| ->])|(k&x&y&z&_&Hx&_&_&[->| ->])];
      first [by eapply elem_of_list_lookup_2|by destruct (Hp y z)].
Qed.

Lemma token_str s w : one_type true (elems s) -> tokens_of true s w -> exists t, w = WStr t.
Proof.
  intros Hty Ht.
  assert (w ∈ elems s \/ exists x y, w = bigram x y) as [Hw|(x&y&->)]; [|by apply Hty|by eexists].
  destruct s as [l|l]; simpl in *.
  - destruct Ht as [(i&x&Hi&_&->)|(i&x&y&_&_&->)]; [left; by eapply elem_of_list_lookup_2|eauto].
  - destruct Ht as [(x&y&z&Hx&_&_&[->| ->])|(k&x&y&z&_&Hx&_&_&[->| ->])];
      first [left; by eapply elem_of_list_lookup_2|eauto].
Qed.

Section learned.
  Context {M : machine} (it : set_order) (Hit : set_order_ok it) (h : list call) (ms : list message).
  Context (Hm : matched true h ms) (Hb : (Z.of_nat (S (length h)) < 2 ^ 48)%Z).
  Context (Hnone : Forall (fun m => WNone ∉ m.1) ms).
  Context (s : stream) (Hty : one_type true (elems s)).

  Lemma learn_once_bi b w1 w2 w3 : nothing_against b ms s ->
    (forall w, w ∈ [w1; w2; w3] -> tokens_of true s w /\ plain_word w) -> NoDup [w1; w2; w3] ->
    exists o' p ev, spamprob_evidence mem_backend it s
        (fst (run mem_backend it (h ++ [CLearn s b]) (c_new true ∅ : dobj))) = (o', Ok (p, ev)) /\
      9 / 10 < (if b then p else 1 - p) /\ classify D p = (if b then spam else ham).
  Proof.
    intros Hag Hw Hnd.
    apply (three_words it Hit _ _ (learned_matched_bi true h ms s b Hm)) with w1 w2 w3; try done.
    - rewrite app_length. simpl. lia.
    - constructor; [|done]. change (WNone ∉ toks true s). intros Ht%toks_spec. by destruct (token_str s WNone Hty Ht).
    - intros w Hc. rewrite containing_learned, Hag by done. by destruct b.
    - intros w Hin. destruct (Hw w Hin) as [Ht Hp]. split_and!; [by apply plain_token|done|].
      rewrite containing_learned, bool_decide_eq_true_2 by by apply toks_spec.
      pose proof (containing_le b w ms). rewrite andb_true_r, eqb_reflx. lia.
  Qed.
End learned.

(** ** A generator of at most three words *)
Lemma short_toks l : (length l <= 3)%nat -> toks true (SIter l) = [].
Proof. destruct l as [|x [|y [|z [|v l]]]]; try done. simpl. lia. Qed.

Lemma short_generator {M : machine} it h ms l b : set_order_ok it -> matched true h ms ->
  (Z.of_nat (S (length h)) < 2 ^ 48)%Z -> Forall (fun m => WNone ∉ m.1) ms -> (length l <= 3)%nat ->
  (forall w, candidate true l w -> containing true w ms = 0%Z /\ containing false w ms = 0%Z) ->
  exists o' H S, spamprob_evidence mem_backend it (SIter l)
    (fst (run mem_backend it (h ++ [CLearn (SIter l) b]) (c_new true ∅ : dobj))) =
      (o', Ok (1 / 2, [(WBytes (str "*H*"), H); (WBytes (str "*S*"), S)])).
Proof.
  intros Hit Hm Hb Hnone Hl Hc. pose proof (learned_matched_bi true h ms (SIter l) b Hm) as Hm'.
  rewrite short_toks in Hm' by done. apply (even_scores it Hit true _ _ Hm').
  - unfold bounded_set. pose proof (matched_length _ _ _ Hm). simpl. lia.
  - constructor; [|done]. simpl. by apply not_elem_of_nil.
  - intros w Hw. left. rewrite !containing_learned, !bool_decide_eq_false_2 by by apply not_elem_of_nil.
    rewrite !andb_false_r. destruct (Hc w Hw) as [-> ->]. done.
Qed.

(** ** Three different words are not always enough *)
Notation wx := (WStr (str "ax")).
Notation wy := (WStr (str "ay")).
Notation wz := (WStr (str "az")).
Notation zyx := [wz; wy; wx].
Notation zyx_tokens := [wz; bigram wz wy; wy; bigram wy wx].

Lemma matched_zyx : matched true [CLearn (SList zyx) true] [(zyx_tokens, true)].
Proof. apply (learned_matched_bi true [] [] (SList zyx) true). constructor. Qed.

Lemma no_none_zyx : Forall (fun m : message => WNone ∉ m.1) [(zyx_tokens, true)].
Proof. apply (bool_decide_unpack _). by vm_compute. Qed.

Lemma zyx_occurs w pos : occurs zyx w pos ->
  w = wz /\ pos = [0%Z] \/ w = wy /\ pos = [1%Z] \/ w = wx /\ pos = [2%Z] \/
  w = bigram wz wy /\ pos = [0%Z; 1%Z] \/ w = bigram wy wx /\ pos = [1%Z; 2%Z].
Proof.
  intros [(i&Hi&->)|(i&x&y&Hx&Hy&->&->)].
  - destruct i as [|[|[|i]]]; simpl in Hi; simplify_eq; auto 10.
  - destruct i as [|[|[|i]]]; cbn [lookup list_lookup] in Hx, Hy; simplify_eq; auto 10.
Qed.

Lemma zyx_unsure_gen {M : machine} it h : set_order_ok it -> matched true h [(zyx_tokens, true)] ->
  (Z.of_nat (length h) < 2 ^ 48)%Z ->
  exists o' p ev, spamprob_evidence mem_backend it (SList zyx)
    (fst (run mem_backend it h (c_new true ∅ : dobj))) = (o', Ok (p, ev)) /\
  p < 9 / 10 /\ classify D p = unsure.
Proof.
  intros Hit Hm Hb. set (ms := [(zyx_tokens, true)] : list message) in *.
  set (o := fst (run mem_backend it h (c_new true ∅ : dobj))).
  pose proof (pair_few h ms Hm Hb) as Hf.
  destruct (score_returns_b64 it Hit true h ms Hm Hf (SList zyx) no_none_zyx) as (o'&p&ev&E).
  { intros w. simpl. rewrite !elem_of_cons, elem_of_nil. intros [->|[->|[->|[]]]]; eauto. }
  fold o in E. exists o', p, ev. split; [done|].
  destruct (score_b64 it Hit true h (SList zyx) p ev o' Hb E) as (vH&vS&rest&Eev&_&_&Hp&_).
  assert (mgood o) as Hg by apply (reachable_good it Hit).
  destruct (score_evidence_inv it (SList zyx) o o' p ev Hg E) as (cs&S'&H'&Ec&_&Eev').
  destruct (evidence_tail mnum_total cs S' H') as (rest'&Et&HP&_). rewrite Et, Eev in Eev'.
  injection Eev' as _ _ <-. clear Et Eev.
  assert (o_bigrams o = Some true) as Hbg by (unfold o; by rewrite run_bigrams).
  rewrite Hbg in Ec. cbn [pclues elems] in Ec.
  pose proof (pair_none it Hit h ms Hm no_none_zyx) as Hn. fold o in Hn.
  destruct (pclues_bi_spec mnum_total (mlook (o_store o)) _ _ Hn (proj1 mnum_sane) zyx cs Ec)
    as (used&Eu&C1&C2&C3&C4&C5).
  (* the learned tokens have the same probability *)
  destruct (matched_spam_probability it Hit true h ms Hm Hf (bigram wz wy)) as (q&Hq&_&Nq&_).
  fold o in Hq.
  assert (forall w, w ∈ zyx_tokens -> containing true w ms = 1%Z /\ containing false w ms = 0%Z) as Hcont.
  { intros w. rewrite !elem_of_cons, elem_of_nil. intros [->|[->|[->|[->|[]]]]]; by vm_compute. }
  assert (forall w, w ∈ zyx_tokens -> spam_probability o w = Ok q) as Hsame.
  { intros w Hw. rewrite <- Hq. unfold spam_probability.
    destruct (matched_view it Hit true h ms Hm) as (_&_&T3). fold o in T3.
    rewrite !T3. unfold expected_record. destruct (Hcont w Hw) as [-> ->].
    by destruct (Hcont (bigram wz wy)) as [-> ->]; [right; left|]. }
  assert (strong (A:=D) q = true) as Hs.
  { apply (pair_strong it Hit h ms Hm Hb true (bigram wz wy)); [by vm_compute|by vm_compute|done]. }
  set (c1 := Clue (strength q) q (bigram wz wy) (mlook (o_store o) (bigram wz wy)) : clue D).
  assert (word_clue (A:=D) (mlook (o_store o)) (o_nspam o) (o_nham o) (bigram wz wy) = Ok c1) as W1
    by by apply word_clue_total.
  assert (forall x, x ∈ used -> c_word x.1 ∈ zyx_tokens /\ c_prob x.1 = q /\ c_dist x.1 = strength q) as Hu.
  { intros x Hx. destruct (C4 x Hx) as (D1&D2&D3). apply word_clue_Ok in D1 as (_&_&D4&D5).
    change (spam_probability o (c_word x.1) = Ok (c_prob x.1)) in D4.
    assert (c_word x.1 ∈ zyx_tokens) as Hin.
    { destruct (zyx_occurs _ _ D3) as [[Ew _]|[[Ew _]|[[Ew _]|[[Ew _]|[Ew _]]]]]; rewrite Ew;
        try (apply (bool_decide_unpack _); by vm_compute).
      exfalso. rewrite Ew in D4.
      pose proof (pair_weak it Hit h ms Hm Hb true wx (c_prob x.1)) as Hwk.
      assert (strong (A:=D) (c_prob x.1) = false) as Hst by (apply Hwk; [by vm_compute|by vm_compute|exact D4]).
      unfold significant in D2. rewrite D5 in D2. unfold strong in Hst. unfold MINIMUM_PROB_STRENGTH in D2. congruence. }
    split; [done|]. rewrite (Hsame _ Hin) in D4. injection D4 as Eq0. split; [exact (eq_sym Eq0)|]. rewrite Eq0. exact D5. }
  assert (bigram wz wy ∈ c_word <$> cs) as Hin1.
  { destruct (decide (bigram wz wy ∈ c_word <$> cs)) as [?|Hnin]; [done|exfalso].
    destruct (C5 c1 [0%Z; 1%Z]) as [(pos&x&i&_&Hx&_&_&Hle)|[L _]]; [|exact W1|exact Hs|exact Hnin| |].
    - right. exists 0%nat, wz, wy. done.
    - destruct (Hu x Hx) as (Hw&Hqx&Hdx). unfold clue_leb in Hle. cbn [c_dist c_prob c_word c1] in Hle.
      rewrite Hqx, Hdx in Hle.
      rewrite !(proj2 (neq_true mnum_total _ _) eq_refl) in Hle.
      assert (c_word x.1 ∈ c_word <$> cs) as Hxin.
      { rewrite Eu. apply elem_of_list_fmap. exists x.1. split; [done|]. apply elem_of_list_fmap. by exists x. }
      rewrite !elem_of_cons, elem_of_nil in Hw.
      destruct Hw as [Hw|[Hw|[Hw|[Hw|[]]]]]; rewrite Hw in Hle, Hxin; try done; by vm_compute in Hle.
    - rewrite Eu in L. rewrite fmap_length in L.
      assert (length used <= 5)%nat as H5.
      { rewrite <- (fmap_length (fun x => c_word x.1)).
        transitivity (length zyx_tokens); [|simpl; lia]. apply submseteq_length, NoDup_submseteq.
        - rewrite Eu in C1. by rewrite <- list_fmap_compose in C1.
        - intros w Hw. apply elem_of_list_fmap in Hw as (x&->&Hx). by apply Hu. }
      unfold MAX_DISCRIMINATORS in L. lia. }
  (* it is the only clue *)
  rewrite Eu in Hin1. apply elem_of_list_fmap in Hin1 as (cl&Ecl&Hcl).
  apply elem_of_list_fmap in Hcl as (x1&->&Hx1).
  destruct (proj1 (elem_of_Permutation used x1) Hx1) as [others Hper].
  assert (others = []) as ->.
  { destruct others as [|x2 others]; [done|exfalso].
    assert (x2 ∈ used) as Hx2 by (rewrite Hper; right; left).
    destruct (C4 _ Hx1) as (_&_&O1). destruct (C4 _ Hx2) as (_&_&O2). rewrite <- Ecl in O1.
    destruct (Hu _ Hx2) as (T2&_).
    assert (x1.2 = [0%Z; 1%Z]) as P1.
    { destruct (zyx_occurs _ _ O1) as [[Ew _]|[[Ew _]|[[Ew _]|[[_ ->]|[Ew _]]]]]; [| | |done|];
        exfalso; apply (f_equal (fun w => bool_decide (w = bigram wz wy))) in Ew; by vm_compute in Ew. }
    assert (0%Z ∈ x2.2 \/ 1%Z ∈ x2.2) as P2.
    { destruct (zyx_occurs _ _ O2) as [[_ ->]|[[_ ->]|[[Ew _]|[[_ ->]|[_ ->]]]]];
        [left; left|right; left| |left; left|right; left].
      exfalso. rewrite Ew in T2. revert T2. apply (bool_decide_unpack _). by vm_compute. }
    rewrite Hper in C3. rewrite !fmap_cons in C3. cbn [mjoin list_join] in C3. rewrite P1 in C3.
    apply NoDup_app in C3 as (_&C3&_). destruct P2 as [P2|P2].
    - apply (C3 0%Z); [left|]. apply elem_of_app. by left.
    - apply (C3 1%Z); [right; left|]. apply elem_of_app. by left. }
  assert (rest ≡ₚ [(c_word x1.1, q)]) as Hrest.
  { rewrite HP, Eu. unfold ev_pairs. rewrite Hper. simpl. by destruct (Hu _ Hx1) as (_&->&_). }
  apply Permutation_singleton_r in Hrest. rewrite Hrest in Hp. cbn [fmap list_fmap snd] in Hp.
  destruct (one_label_robinson 1 1 0 ltac:(lia)) as [Er _].
  apply near9 in Nq; [|by vm_compute].
  destruct (Hcont (bigram wz wy)) as [Ca Cb]; [right; left|]. rewrite Ca, Cb in Nq.
  change (total true ms) with 1%Z in Nq. change (total false ms) with 0%Z in Nq. rewrite Er in Nq.
  replace (10 ^ 15) with 1000000000000000 in * by (simpl; ring). apply Rabs_le_inv in Nq.
  rewrite combined_single in Hp by lra.
  apply Rabs_le_inv in Hp. replace (10 ^ 12) with 1000000000000 in Hp by (simpl; ring).
  split; [lra|]. apply certainly_unsure. lra.
Qed.

Lemma zyx_unsure {M : machine} : exists o' p ev, spamprob_evidence mem_backend remove_dups (SList zyx)
    (fst (run mem_backend remove_dups [CLearn (SList zyx) true] (c_new true ∅ : dobj))) = (o', Ok (p, ev)) /\
  p < 9 / 10 /\ classify D p = unsure.
Proof. apply (zyx_unsure_gen remove_dups _ remove_dups_ok matched_zyx). simpl. lia. Qed.

(** ** The hypotheses can be met *)
Lemma plain_not_b n t : n <> 98%N -> plain_word (WStr (n :: t)).
Proof. intros Hn x y E. unfold bigram in E. cbn [app str] in E. by injection E. Qed.

Lemma pair_case :
  matched true [] [] /\ one_type true [wz; wy; wx; wy] /\ nothing_against true [] (SList [wz; wy; wx; wy]) /\
  (forall w, w ∈ [wz; wy; wx] -> tokens_of true (SList [wz; wy; wx; wy]) w /\ plain_word w) /\
  NoDup [wz; wy; wx].
Proof.
  split; [constructor|]. split.
  { intros w. rewrite !elem_of_cons, elem_of_nil. intros [->|[->|[->|[->|[]]]]]; eauto. }
  split; [done|]. split; [|apply (bool_decide_unpack _); by vm_compute].
  intros w. rewrite !elem_of_cons, elem_of_nil.
  intros [->|[->|[->|[]]]]; (split; [|by apply plain_not_b]); left.
  - exists 0%nat, wz. split; [done|]. split; [simpl; lia|done].
  - exists 1%nat, wy. split; [done|]. split; [simpl; lia|done].
  - exists 2%nat, wx. split; [done|]. split; [simpl; lia|done].
Qed.

Lemma pair_generator_case : let l := [wz; wy; wy; wy; wx; wy; wy; wy; wy; wy] in
  one_type true l /\ nothing_against true [] (SIter l) /\
  (forall w, w ∈ [wz; wx; wy] -> tokens_of true (SIter l) w /\ plain_word w) /\ NoDup [wz; wx; wy].
Proof.
  intros l. split.
  { intros w. unfold l. rewrite !elem_of_cons, elem_of_nil. naive_solver. }
  split; [done|]. split; [|apply (bool_decide_unpack _); by vm_compute].
  intros w. rewrite !elem_of_cons, elem_of_nil.
  intros [->|[->|[->|[]]]]; (split; [|by apply plain_not_b]).
  - left. exists wz, wy, wy. split_and!; first [done|by left].
  - right. exists 1%nat, wx, wy, wy. split_and!; first [done|lia|by left].
  - right. exists 2%nat, wy, wy, wy. split_and!; first [done|lia|by left].
Qed.

Lemma three_not_enough {M : machine} : exists (l : list pyword), length l = 3%nat /\ NoDup l /\
  exists o' p ev, spamprob_evidence mem_backend remove_dups (SList l)
      (fst (run mem_backend remove_dups [CLearn (SList l) true] (c_new true ∅ : dobj))) = (o', Ok (p, ev)) /\
    p < 9 / 10 /\ classify D p = unsure.
Proof.
  exists zyx. split; [done|]. split; [apply (bool_decide_unpack _); by vm_compute|]. exact zyx_unsure.
Qed.
