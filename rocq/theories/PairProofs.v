(** * Recognising learned messages with bigrams *)
From Coq Require Import Reals Lra Lia String.
From Flocq Require Import Core.
From Verif Require Import Py NumModel ClassifierModel TrainSpec TrainProofs ScoreProofs
  SortProofs ScoreSpec ClueProofs TileProofs RealModel RealSpec
  RealProofs ExactProofs ApiProofs FloatProofs FloatApiProofs MessageModel MessageProofs MessageCases
  OnceProofs OnceSpec OnceCases PairSpec.
Local Open Scope R_scope.

Section pair.
  Context {M : machine} (it : set_order) (Hit : set_order_ok it) (h : list call) (ms : list message).
  Context (Hm : matched true h ms) (Hb : (Z.of_nat (length h) < 2 ^ 48)%Z).
  Notation o := (fst (run mem_backend it h (c_new true ∅ : dobj))).

  Lemma pair_few : bounded_set ms.
  Proof. unfold bounded_set. pose proof (matched_length _ _ _ Hm). lia. Qed.

  Lemma pair_side b w q : containing (negb b) w ms = 0%Z -> (1 <= containing b w ms)%Z ->
    spam_probability o w = Ok q -> q0 <= side b q.
  Proof.
    intros H0 H1 Hq.
    destruct (matched_spam_probability it Hit true _ _ Hm pair_few w) as (q'&Hq'&_&Nq&_).
    rewrite Hq in Hq'. injection Hq' as <-. apply near9 in Nq; [|destruct b; simpl in *; lia].
    pose proof (containing_le b w ms) as Hle.
    destruct (one_label_robinson (containing b w ms) (total b ms) (total (negb b) ms) ltac:(lia)) as [E1 E2].
    assert (1 <= IZR (containing b w ms)) as Hkr by (by apply IZR_le).
    assert (225 / 1000 / (45 / 100 + IZR (containing b w ms)) <= 225 / 1000 / (145 / 100)) as Hd.
    { apply Rmult_le_compat_l; [lra|]. apply Rinv_le_contravar; lra. }
    assert (0 < 225 / 1000 / (45 / 100 + IZR (containing b w ms))) as Hr.
    { apply Rmult_lt_0_compat; [lra|apply Rinv_0_lt_compat; lra]. }
    set (x := 225 / 1000 / (45 / 100 + IZR (containing b w ms))) in *. unfold q0.
    replace (10 ^ 15) with 1000000000000000 in * by (simpl; ring).
    destruct b; simpl in *; rewrite H0 in Nq.
    - rewrite E1 in Nq. apply Rabs_le_inv in Nq. lra.
    - rewrite E2 in Nq. apply Rabs_le_inv in Nq. lra.
  Qed.

  Lemma pair_strong b w q : containing (negb b) w ms = 0%Z -> (1 <= containing b w ms)%Z ->
    spam_probability o w = Ok q -> strong (A:=D) q = true.
  Proof.
    intros H0 H1 Hq. pose proof (pair_side b w q H0 H1 Hq) as Hs.
    destruct (matched_spam_probability it Hit true _ _ Hm pair_few w) as (q'&Hq'&Rq&_).
    rewrite Hq in Hq'. injection Hq' as <-. pose proof u_pos. unfold q0 in Hs.
    apply strong_far; [lra|]. destruct b; simpl in Hs; [rewrite Rabs_pos_eq|rewrite Rabs_left]; lra.
  Qed.

  Lemma pair_weak b w q : containing (negb b) w ms = 0%Z -> (containing b w ms = 0)%Z ->
    spam_probability o w = Ok q -> strong (A:=D) q = false.
  Proof.
    intros H0 H1 Hq.
    destruct (matched_spam_probability it Hit true _ _ Hm pair_few w) as (q'&Hq'&_&_&Zq).
    rewrite Hq in Hq'. injection Hq' as <-. rewrite Zq by (destruct b; simpl in *; lia).
    apply weak_close. rewrite Rminus_diag_eq by done. rewrite Rabs_R0. lra.
  Qed.

  Context (Hnone : Forall (fun m => WNone ∉ m.1) ms).

  Lemma pair_none : o_store o !! WNone = None.
  Proof.
    destruct (matched_view it Hit true _ _ Hm) as (_&_&T3). rewrite T3. unfold expected_record.
    assert (forall b, containing b WNone ms = 0%Z) as Hc.
    { intros b. clear -Hnone. induction Hnone as [|[ws b'] ms Hw _ IH]; simpl in *; [done|].
      rewrite bool_decide_eq_false_2 by done. rewrite andb_false_r, IH; [done|]. by inversion Hnone. }
    by rewrite !Hc.
  Qed.

  (** Three different learned words need at least two clues. *)
  Lemma three_words s b w1 w2 w3 : one_type true (elems s) -> nothing_against b ms s ->
    (forall w, w ∈ [w1; w2; w3] -> w ∈ elems s /\ plain_word w /\ (1 <= containing b w ms)%Z) ->
    NoDup [w1; w2; w3] ->
    exists o' p ev, spamprob_evidence mem_backend it s o = (o', Ok (p, ev)) /\
      9 / 10 < side b p /\ classify D p = (if b then spam else ham).
  Proof.
    intros Hty Hag Hw Hnd.
    destruct (score_returns_b64 it Hit true _ _ Hm pair_few s Hnone Hty) as (o'&p&ev&E).
    destruct (score_b64 it Hit true h s p ev o' Hb E) as (vH&vS&rest&Eev&Hr&_&Hp&_).
    destruct (clues_bi mnum_total it Hit _ _ _ _ _ pair_none (proj1 mnum_sane) E)
      as (evH&evS&rest'&used&Eev'&HP&_&_&Nd&Hin&Hout).
    rewrite Eev in Eev'. injection Eev' as _ _ <-.
    exists o', p, ev. split; [done|].
    (* every clue points to b *)
    assert (Forall high (side b <$> rest.*2)) as Hh.
    { apply Forall_fmap, Forall_fmap, Forall_forall. intros [w q] Hwq. simpl.
      assert ((w, q) ∈ used.*1) as Hu by by rewrite <- HP.
      apply elem_of_list_fmap in Hu as ([[w' q'] pos]&[= <- <-]&Hu).
      destruct (Hin w q pos Hu) as (Ho&Hq&Hs). 
      assert (containing (negb b) w ms = 0%Z) as H0 by (apply Hag; by exists pos).
      destruct (decide (containing b w ms = 0%Z)) as [H1|H1].
      { rewrite (pair_weak b w q H0 H1 Hq) in Hs. done. }
      pose proof (containing_le b w ms).
      pose proof (pair_side b w q H0 ltac:(lia) Hq) as Hsd.
      rewrite Forall_forall in Hr. specialize (Hr _ Hwq). simpl in Hr.
      split; [done|]. destruct b; simpl; lra. }
    assert (2 <= length rest)%nat as Hlen.
    { rewrite HP, fmap_length. clear Hh HP Hp.
      assert (forall w, w ∈ [w1; w2; w3] -> length used <> 150%nat ->
        exists w' q' pos' i, ((w', q'), pos') ∈ used /\ elems s !! i = Some w /\ Z.of_nat i ∈ pos') as Hcov.
      { intros w Hw0 H150. destruct (Hw w Hw0) as (Hel&Hpl&Hc).
        apply elem_of_list_lookup in Hel as [j Hj].
        assert (occurs (elems s) w [Z.of_nat j]) as Ho by (left; by exists j).
        assert (containing (negb b) w ms = 0%Z) as H0 by (apply Hag; by eexists).
        destruct (matched_spam_probability it Hit true _ _ Hm pair_few w) as (q&Hq&_).
        pose proof (pair_strong b w q H0 Hc Hq) as Hs.
        assert (forall pos, occurs (elems s) w pos -> exists i, elems s !! i = Some w /\ pos = [Z.of_nat i]) as Hpos.
        { intros pos [H|(i&x&y&_&_&Hbi&_)]; [done|]. by destruct (Hpl x y). }
        destruct (decide (w ∈ used.*1.*1)) as [Hu|Hu].
        - apply elem_of_list_fmap in Hu as ([w' q']&->&Hu). simpl in *.
          apply elem_of_list_fmap in Hu as ([[w'' q''] pos']&[= <- <-]&Hu). simpl in *.
          destruct (Hin _ _ _ Hu) as (Ho'&_). destruct (Hpos _ Ho') as (i&Hi&->).
          exists w', q', [Z.of_nat i], i. split_and!; [done|done|left].
        - destruct (Hout w q _ Ho Hq Hs Hu) as [(pos&w'&q'&pos'&i&Ho'&Hu'&Hi&Hi'&_)|[? _]]; [|done].
          destruct (Hpos _ Ho') as (i'&Hi2&->). apply elem_of_list_singleton in Hi as ->.
          exists w', q', pos', i'. done. }
      destruct used as [|[[u q] pos] [|x used]]; simpl; [| |lia].
      { destruct (Hcov w1) as (?&?&?&?&Hx&_); [left|simpl; lia|]. by apply elem_of_nil in Hx. }
      exfalso. assert (length pos <= 2)%nat as Hl.
      { destruct (Hin u q pos) as (Ho&_); [left|].
        destruct Ho as [(i&_&->)|(i&x&y&_&_&_&->)]; simpl; lia. }
      assert (forall w, w ∈ [w1; w2; w3] -> exists i, elems s !! i = Some w /\ Z.of_nat i ∈ pos) as Hc.
      { intros w H0. destruct (Hcov w H0) as (w'&q'&pos'&i&Hx&Hi&Hp'); [simpl; lia|].
        apply elem_of_list_singleton in Hx. injection Hx as -> -> ->. by exists i. }
      destruct (Hc w1) as (i1&E1&P1); [by left|]. destruct (Hc w2) as (i2&E2&P2); [by right; left|].
      destruct (Hc w3) as (i3&E3&P3); [by right; right; left|].
      assert (NoDup [Z.of_nat i1; Z.of_nat i2; Z.of_nat i3]) as Hni.
      { apply NoDup_cons in Hnd as [N1 Hnd]. apply NoDup_cons in Hnd as [N2 _].
        rewrite not_elem_of_cons, elem_of_list_singleton in N1. rewrite elem_of_list_singleton in N2.
        destruct N1 as [N1 N3].
        assert (i1 <> i2) by congruence. assert (i1 <> i3) by congruence. assert (i2 <> i3) by congruence.
        constructor; [|constructor; [|constructor; [|constructor]]].
        - rewrite !elem_of_cons, elem_of_nil. lia.
        - rewrite !elem_of_cons, elem_of_nil. lia.
        - by apply not_elem_of_nil. }
      assert (length [Z.of_nat i1; Z.of_nat i2; Z.of_nat i3] <= length pos)%nat as Hle.
      { apply submseteq_length, NoDup_submseteq; [done|]. intros z Hz.
        apply elem_of_cons in Hz as [->|Hz]; [done|]. apply elem_of_cons in Hz as [->|Hz]; [done|].
        by apply elem_of_list_singleton in Hz as ->. }
      simpl in Hle. lia. }
    assert (9 / 10 + 1 / 1000 < combined_score (side b <$> rest.*2)) as Hc.
    { apply combined_several; [|done]. by rewrite !fmap_length. }
    assert (Rabs (side b p - combined_score (side b <$> rest.*2)) <= 4 / 10 ^ 12) as Hp'.
    { destruct b.
      + change (side true p) with p. change (side true <$> rest.*2) with (id <$> rest.*2).
        by rewrite list_fmap_id.
      + change (side false p) with (1 - p). assert (combined_score (side false <$> rest.*2) = 1 - combined_score (rest.*2)) as -> by apply indicators_mirror.
        replace (1 - p - (1 - combined_score (rest.*2))) with (- (p - combined_score (rest.*2))) by ring.
        by rewrite Rabs_Ropp. }
    apply Rabs_le_inv in Hp'. replace (10 ^ 12) with 1000000000000 in Hp' by (simpl; ring).
    revert Hc Hp'. generalize (combined_score (side b <$> rest.*2)). intros c0 Hc Hp'.
    split; [lra|]. destruct b; unfold side in Hp'; [apply certainly_spam|apply certainly_ham]; lra.
  Qed.
End pair.
