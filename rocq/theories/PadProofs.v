(** * Words without significance do not change a score (C117) *)
From Coq Require Import String Reals Lra Lia.
From Verif Require Import Py NumModel ClassifierModel TrainSpec TrainProofs ScoreProofs SortProofs ScoreSpec ClueProofs TileProofs CorpusProofs RealModel RealSpec RealProofs ExactProofs ApiProofs ShelveApiProofs
  StripModel RaiseModel RaiseProofs TokenModel TokenProofs MessageModel HeadModel FloatProofs FloatApiProofs OnceSpec OnceCases
  TreeModel TreeSpec TreeProofs SeenSpec SeenProofs SidedSpec SidedProofs.

Section clues.
  Context {A : num} (HA : total_num A) (lk : pyword -> option winfo) (ns nh : Z).

  Lemma pclues_uni_weak it1 it2 ws1 ws2 : set_order_ok it1 -> set_order_ok it2 ->
    (forall w, ~ (w ∈ ws1 <-> w ∈ ws2) -> exists q, word_prob (A:=A) lk ns nh w = Ok q /\ strong q = false) ->
    same_result (pclues_uni (A:=A) it1 lk ns nh ws1) (pclues_uni it2 lk ns nh ws2).
  Proof.
    intros H1 H2 Hws.
    assert (forall it it' ws ws' t, set_order_ok it -> set_order_ok it' ->
      (forall w, ~ (w ∈ ws <-> w ∈ ws') -> exists q, word_prob (A:=A) lk ns nh w = Ok q /\ strong q = false) ->
      rmap (word_clue (A:=A) lk ns nh) (it ws) = Ok t -> exists t', rmap (word_clue (A:=A) lk ns nh) (it' ws') = Ok t') as Hok.
    { clear. intros it it' ws ws' t H1 H2 Hws E. apply rmap_all. intros w Hw. apply (proj2 (H2 ws')) in Hw.
      destruct (decide (w ∈ ws)) as [Hw1|Hw1].
      - apply (proj2 (H1 ws)) in Hw1. apply rmap_Ok in E. apply elem_of_list_lookup in Hw1 as [i Hi].
        destruct (Forall2_lookup_l _ _ _ _ _ E Hi) as (c&_&Hc). eauto.
      - destruct (Hws w) as (q&Hq&_); [tauto|]. rewrite (word_clue_total lk ns nh w q Hq). eauto. }
    unfold pclues_uni.
    destruct (rmap (word_clue lk ns nh) (it1 ws1)) as [t1|e1] eqn:E1.
    - destruct (Hok it1 it2 ws1 ws2 t1 H1 H2 Hws E1) as (t2&E2). rewrite E2. simpl.
      assert (NoDup (c_word <$> List.filter significant t1)) as N1.
      { apply NoDup_words_filter. rewrite (rmap_clue_words _ _ _ _ _ E1). apply H1. }
      assert (NoDup (c_word <$> List.filter significant t2)) as N2.
      { apply NoDup_words_filter. rewrite (rmap_clue_words _ _ _ _ _ E2). apply H2. }
      assert (List.filter significant t1 ≡ₚ List.filter significant t2) as Hpf.
      { apply NoDup_Permutation; [by eapply NoDup_fmap_1|by eapply NoDup_fmap_1|]. intros c.
        rewrite !elem_of_Lfilter, (rmap_clue_elem _ _ _ _ _ c E1), (rmap_clue_elem _ _ _ _ _ c E2).
        rewrite (proj2 (H1 ws1) (c_word c)), (proj2 (H2 ws2) (c_word c)).
        destruct (decide (c_word c ∈ ws1)), (decide (c_word c ∈ ws2)); try tauto;
          (destruct (Hws (c_word c)) as (q&Hq&Hs); [tauto|]; split; intros [[_ Hc] Hsig]; exfalso;
           apply word_clue_Ok in Hc as (_&_&Hp&Hd); rewrite Hq in Hp; injection Hp as ->;
           unfold significant in Hsig; rewrite Hd in Hsig; unfold strong, MINIMUM_PROB_STRENGTH in *; congruence). }
      assert (any_clash (List.filter significant t1) = any_clash (List.filter significant t2)) as Hc.
      { apply eq_true_iff_eq. rewrite !any_clash_spec by done. setoid_rewrite Hpf. done. }
      unfold sort_clues. rewrite Hc. destruct (any_clash (List.filter significant t2)); simpl; [done|].
      f_equal. apply isort_unique; [apply clue_leb_total, HA|apply clue_leb_trans, HA| |done].
      intros x y [Hx _]%elem_of_Lfilter [Hy _]%elem_of_Lfilter.
      apply (rmap_clue_elem _ _ _ _ _ _ E1) in Hx as [_ Hx].
      apply (rmap_clue_elem _ _ _ _ _ _ E1) in Hy as [_ Hy]. by apply (clue_anti HA lk ns nh).
    - destruct (rmap (word_clue lk ns nh) (it2 ws2)) as [t2|e2] eqn:E2; simpl; [|done].
      destruct (Hok it2 it1 ws2 ws1 t2 H2 H1) as (t1&E1'); [|done|congruence].
      intros w Hw. apply Hws. tauto.
  Qed.
End clues.

(** Two streams that differ in weak words only *)
Lemma score_weak {A : num} (HA : total_num A) it0 it1 it2 h s1 s2 :
  set_order_ok it0 -> set_order_ok it1 -> set_order_ok it2 ->
  let o := fst (run mem_backend it0 h (c_new false ∅ : obj A (gmap pyword winfo))) in
  (forall w, ~ (w ∈ elems s1 <-> w ∈ elems s2) -> exists q, spam_probability o w = Ok q /\ strong q = false) ->
  same_result (snd (spamprob_evidence mem_backend it1 s1 o))
              (snd (spamprob_evidence mem_backend it2 s2 o)).
Proof.
  intros H0 H1 H2 o Hws. assert (mgood o) as Hg by apply (reachable_good it0 H0).
  assert (o_bigrams o = Some false) as Hbg by (unfold o; by rewrite run_bigrams).
  destruct (mem_score it1 s1 o Hg) as (o1&->&_&_).
  destruct (mem_score it2 s2 o Hg) as (o2&->&_&_). simpl.
  unfold pscore_evidence. rewrite Hbg. simpl.
  pose proof (pclues_uni_weak HA (mlook (o_store o)) (o_nspam o) (o_nham o) it1 it2
                (elems s1) (elems s2) H1 H2 Hws) as Hp.
  destruct (pclues_uni it1 _ _ _ _) as [c1|e1], (pclues_uni it2 _ _ _ _) as [c2|e2]; simpl in *; try done.
  subst c2. by destruct (score_probs A _) as [[[p S] H]|e].
Qed.

(** Words in no learned message are unknown. *)
Lemma unlearned_weak {A : num} it (Hs : sane A) h ms w : set_order_ok it -> matched false h ms -> (forall x, x ∈ ms -> w ∉ x.1) ->
  exists q, spam_probability (fst (run mem_backend it h (c_new false ∅ : obj A (gmap pyword winfo)))) w = Ok q /\ strong q = false.
Proof.
  intros Hit Hm Hw. pose proof (matched_refines it Hit (A := A) false h ms Hm) as Hr.
  destruct (run mem_backend it h (c_new false ∅)) as [o rs]. destruct Hr as [(_&_&_&Hr) _]. cbn [fst].
  exists (nQ A 1 2). split; [|apply Hs]. unfold spam_probability. rewrite Hr.
  assert (forall b, containing b w ms = 0%Z) as H0.
  { clear - Hw. intros b. induction ms as [|[ws b'] ms IH]; [done|]. cbn [containing].
    rewrite IH by (intros x Hx; apply Hw; by right). rewrite bool_decide_eq_false_2; [by destruct (eqb b b')|]. apply (Hw (ws, b')). left. }
  unfold expected_record. by rewrite !H0.
Qed.

(** ** Parts that are added to a message *)
Section messages.
  Context (U : unicode) (E : mailpkg) (o : topts) (a2b : codes -> res codes).

  Lemma more_parts order order' x h ps (new : list part) qs : parts_order_ok order -> parts_order_ok order' -> (forall q, q ∈ qs <-> q ∈ ps \/ q ∈ new) ->
    let g := tokenize_message U E order o a2b (Part x h (Multi ps)) in
    let g' := tokenize_message U E order' o a2b (Part x h (Multi qs)) in
    let each p := tokenize_message U E order o a2b (alone h p) in
    g'.2 = None -> g.2 = None /\ forall w, w ∈ g'.1 <-> w ∈ g.1 \/ exists p q, q ∈ new /\ inside p q /\ w ∈ (each p).1.
  Proof.
    intros Ho Ho' Hs g g' each Hn.
    destruct (parts_one_by_one U E o a2b order order (Part x h (Multi ps)) Ho Ho) as [N1 W1].
    destruct (parts_one_by_one U E o a2b order' order (Part x h (Multi qs)) Ho' Ho) as [N2 W2].
    cbn [part_headers] in *. fold g in N1, W1. fold g' in N2, W2.
    pose proof (proj1 N2 Hn) as Hall. assert (g.2 = None) as Hg.
    { apply N1. intros p Hp. inversion Hp as [|? q ? ? ? Hq Hi]; subst.
      - change (alone h (Part x h (Multi ps))) with (alone h (Part x h (Multi qs))). apply Hall. constructor.
      - apply Hall. apply (inside_sub _ q); [|done]. apply Hs. by left. }
    split; [done|]. intros w. rewrite (W2 Hn), (W1 Hg). split.
    - intros (p&Hp&Hw). inversion Hp as [|? q ? ? ? Hq Hi]; subst.
      + left. exists (Part x h (Multi ps)). split; [constructor|]. exact Hw.
      + apply Hs in Hq as [Hq|Hq]; [left|right; by exists p, q]. exists p. split; [by apply (inside_sub _ q)|done].
    - intros [(p&Hp&Hw)|(p&q&Hq&Hi&Hw)].
      + inversion Hp as [|? q ? ? ? Hq Hi]; subst.
        * exists (Part x h (Multi qs)). split; [constructor|]. exact Hw.
        * exists p. split; [|done]. apply (inside_sub _ q); [|done]. apply Hs. by left.
      + exists p. split; [|done]. apply (inside_sub _ q); [|done]. apply Hs. by right.
  Qed.

  Lemma added_parts {A : num} (HA : total_num A) (Hsane : sane A) it it' order l order1 order2 x h ps (new : list part) qs :
    set_order_ok it -> set_order_ok it' -> parts_order_ok order1 -> parts_order_ok order2 ->
    (forall mb : part * bool, mb ∈ l -> (tokenize_message U E order o a2b mb.1).2 = None) ->
    (forall q, q ∈ qs <-> q ∈ ps \/ q ∈ new) ->
    let g := tokenize_message U E order1 o a2b (Part x h (Multi ps)) in
    let g' := tokenize_message U E order2 o a2b (Part x h (Multi qs)) in
    (tokenize_message U E order2 o a2b (Part x h (Multi qs))).2 = None ->
    (forall p q w, q ∈ new -> inside p q -> w ∈ (tokenize_message U E order1 o a2b (alone h p)).1 ->
       w ∈ g.1 \/ forall mb, mb ∈ l -> w ∉ (tokenize_message U E order o a2b mb.1).1) ->
    let ob := learn_all U E o a2b it order l (c_new false ∅ : obj A (gmap pyword winfo)) in
    same_result (score_gen mem_backend it' g ob).2 (score_gen mem_backend it' g' ob).2.
  Proof.
    intros Hit Hit' Ho1 Ho2 Hl Hqs g g' Hn Hw ob.
    destruct (more_parts order1 order2 x h ps new qs Ho1 Ho2 Hqs Hn) as [Hg Hmem]. fold g g' in Hmem, Hg.
    destruct g as [ws e] eqn:Eg. destruct g' as [ws' e'] eqn:Eg'. unfold g' in Eg'. rewrite Eg' in Hn. cbn [fst snd] in *. subst e e'.
    cbn [score_gen]. unfold ob. rewrite (learn_all_run U E o a2b it order l _ Hl).
    apply (score_weak HA it it' it'); [done..|]. cbn [elems]. intros w Hd.
    apply (unlearned_weak it Hsane _ (msgs U E o a2b order l)); [done|apply calls_matched|].
    intros y Hy. unfold msgs in Hy. apply elem_of_list_fmap in Hy as (mb&->&Hmb). cbn [fst].
    rewrite elem_of_list_In, <- in_rev, <- elem_of_list_In in Hmb.
    rewrite Hmem in Hd. intros Hin. apply Hd. split; [by left|]. intros [H|(p&q&Hq&Hi&Hp)]; [done|].
    destruct (Hw p q w Hq Hi Hp) as [H|H]; [done|]. by destruct (H mb Hmb).
  Qed.
End messages.

(** ** With bigrams this is false *)
Section bigrams.
  Let a := WStr (str "a").
  Let b := WStr (str "b").
  Let c := WStr (str "c").
  Let x := WStr (str "x").
  Let h := [CLearn (SList [a; b]) true; CLearn (SList [a; c]) false].

  Local Lemma pair_strong : exists q, prob_formula (A:=exact) 1 1 (WI 1 0) = Ok q /\ strong q = true.
  Proof.
    exists (robinson 1 1 0 1). split; [apply (prob_formula_exact 1 1 (WI 1 0)); unfold consistent; simpl; lia|].
    assert (robinson 1 1 0 1 = 49 / 58)%R as ->.
    { assert (spam_share 1 1 0 1 = 1)%R as E by (unfold spam_share, fraction, nonempty_total; simpl; field).
      unfold robinson. cbv zeta. rewrite E. change (0 + 1)%Z with 1%Z. field. }
    unfold strong, strength, nge. cbn [nabs nsub nQ nlt exact rnum]. rewrite Rabs_pos_eq by lra.
    destruct (rltb (49 / 58 - 1 / 2) (1 / 10)) eqn:E; [|done]. apply rltb_true in E. lra.
  Qed.

  Local Lemma both_weak : exists q, prob_formula (A:=exact) 1 1 (WI 1 1) = Ok q /\ strong q = false.
  Proof.
    exists (robinson 1 1 1 1). split; [apply (prob_formula_exact 1 1 (WI 1 1)); unfold consistent; simpl; lia|].
    assert (robinson 1 1 1 1 = 1 / 2)%R as ->.
    { assert (spam_share 1 1 1 1 = 1 / 2)%R as E by (unfold spam_share, fraction, nonempty_total; simpl; field).
      unfold robinson. cbv zeta. rewrite E. change (1 + 1)%Z with 2%Z. field. }
    apply exact_sane.
  Qed.

  Lemma padding_breaks_pairs it : set_order_ok it ->
    let o := fst (run mem_backend it h (c_new true ∅ : obj exact (gmap pyword winfo))) in
    (exists q, spam_probability o x = Ok q /\ strong q = false) /\
    ~ same_result (snd (spamprob_evidence mem_backend it (SList [a; b]) o)) (snd (spamprob_evidence mem_backend it (SList [a; x; b]) o)).
  Proof.
    intros Hit o.
    destruct (learn_mem it Hit (SList [a; b]) true true (c_new true ∅ : obj exact (gmap pyword winfo)) eq_refl) as (m1&E1&L1).
    destruct (learn_mem it Hit (SList [a; c]) false true (Obj (Some true) 1 0 ∅ m1 : obj exact (gmap pyword winfo)) eq_refl) as (m2&E2&L2).
    assert (o = Obj (Some true) 1 1 ∅ m2) as Eo.
    { unfold o, h. cbn [run run_call]. rewrite E1. cbn [fst o_nspam o_nham c_new]. change (0 + 1)%Z with 1%Z. rewrite E2. done. }
    cbn [o_store c_new] in L1, L2.
    assert (forall w, o_store o !! w =
      if bool_decide (w = a) then Some (WI 1 1) else if bool_decide (w = bigram a b) then Some (WI 1 0)
      else if bool_decide (w = bigram a c) then Some (WI 0 1) else None) as Lo.
    { intros w. rewrite Eo. cbn [o_store]. rewrite L2, L1.
      change (toks true (SList [a; b])) with [a; bigram a b]. change (toks true (SList [a; c])) with [a; bigram a c].
      destruct (decide (w = a)) as [->|H1]; [by vm_compute|].
      destruct (decide (w = bigram a b)) as [->|H2]; [by vm_compute|].
      destruct (decide (w = bigram a c)) as [->|H3]; [by vm_compute|].
      rewrite !bool_decide_eq_false_2; [by rewrite lookup_empty|done..| |]; rewrite !elem_of_cons, elem_of_nil; tauto. }
    assert (forall w, w <> bigram a b -> w <> bigram a c -> exists q, spam_probability o w = Ok q /\ strong q = false) as Hweak.
    { intros w H1 H2. unfold spam_probability. rewrite Lo, Eo. cbn [o_nspam o_nham].
      destruct (bool_decide (w = a)); [exact both_weak|]. rewrite !bool_decide_eq_false_2 by done.
      exists (nQ exact 1 2). split; [done|apply exact_sane]. }
    assert (o_store o !! WNone = None) as Hnone by (rewrite Lo; by vm_compute).
    split; [by apply Hweak|].
    destruct (no_clues_score it true h (SList [a; x; b]) (rnum_total (fun r => r)) Hit exact_sane Hnone) as (o2&H&S'&E3).
    { intros w [pos [(i&Hi&_)|(i&u&v&Hu&Hv&->&_)]]; cbn [elems] in *.
      - apply Hweak; intros ->; destruct i as [|[|[|i]]]; done.
      - apply Hweak; destruct i as [|[|[|i]]]; try done; injection Hu as <-; injection Hv as <-; done. }
    change (spamprob_evidence mem_backend it (SList [a; x; b]) o = (o2, Ok (nQ exact 1 2, [(WBytes (str "*H*"), H); (WBytes (str "*S*"), S')]))) in E3. rewrite E3. cbn [snd]. destruct (spamprob_evidence mem_backend it (SList [a; b]) o) as [o1 r] eqn:Es. cbn [snd].
    destruct r as [[p ev]|e]; [|by intros []]. unfold same_result. intros [= -> ->].
    destruct (clues_bi (rnum_total (fun r => r)) it Hit h (SList [a; b]) _ _ _ Hnone (proj1 exact_sane) Es)
      as (e1&e2&rest&used&[= <- <- <-]&Hperm&_&_&_&_&Hall).
    apply Permutation_nil_l in Hperm. symmetry in Hperm. apply fmap_nil_inv in Hperm as ->.
    destruct pair_strong as (q&Hq&Hsq).
    destruct (Hall (bigram a b) q [0; 1]%Z) as [(?&?&?&?&?&_&Hin&_)|[Hl _]].
    - right. by exists 0, a, b.
    - change (spam_probability o (bigram a b) = Ok q). unfold spam_probability. rewrite Lo, Eo. exact Hq.
    - done.
    - apply not_elem_of_nil.
    - by apply elem_of_nil in Hin.
    - done.
  Qed.

  Lemma padding_with_pairs : ~ forall it h s1 s2, set_order_ok it ->
    let o := fst (run mem_backend it h (c_new true ∅ : obj exact (gmap pyword winfo))) in
    (forall w, ~ (w ∈ elems s1 <-> w ∈ elems s2) -> exists q, spam_probability o w = Ok q /\ strong q = false) ->
    same_result (snd (spamprob_evidence mem_backend it s1 o)) (snd (spamprob_evidence mem_backend it s2 o)).
  Proof.
    intros H. destruct (padding_breaks_pairs remove_dups dups_ok) as [Hx Hn]. apply Hn, H; [exact dups_ok|].
    intros w Hw. cbn [elems] in Hw. assert (w = x) as ->; [|exact Hx].
    destruct (decide (w = x)) as [|Hne]; [done|]. destruct Hw.
    rewrite !elem_of_cons, elem_of_nil. tauto.
  Qed.
End bigrams.

(** ** Words seen equally often on both sides *)
Lemma score_even {M : machine} it0 it1 it2 h ms s1 s2 : set_order_ok it0 -> set_order_ok it1 -> set_order_ok it2 ->
  matched false h ms -> (Z.of_nat (length ms) < 2 ^ 48)%Z ->
  (forall w, ~ (w ∈ elems s1 <-> w ∈ elems s2) -> even_word ms w) ->
  let o := fst (run mem_backend it0 h (c_new false ∅ : obj D (gmap pyword winfo))) in
  same_result (snd (spamprob_evidence mem_backend it1 s1 o)) (snd (spamprob_evidence mem_backend it2 s2 o)).
Proof.
  intros H0 H1 H2 Hm Hb He. apply (score_weak mnum_total it0 it1 it2); [done..|].
  intros w Hw. by apply (even_weak it0 H0 false h ms Hm Hb), He.
Qed.
