(** * What a single training does to a score *)
From Coq Require Import Reals Lra Lia String.
From Flocq Require Import Core.
From Verif Require Import Py NumModel ClassifierModel TrainSpec TrainProofs ScoreProofs
  SortProofs ScoreSpec ClueProofs TileProofs RealModel RealSpec
  RealProofs ExactProofs ApiProofs FloatProofs FloatApiProofs MessageModel MessageProofs MessageCases OnceProofs OnceSpec.
Local Open Scope R_scope.

Lemma one_label_share n t t' : (1 <= n <= t)%Z ->
  spam_share n t 0 t' = 1 /\ spam_share 0 t' n t = 0.
Proof.
  intros H. unfold spam_share, fraction, nonempty_total.
  replace (t =? 0)%Z with false by (symmetry; apply Z.eqb_neq; lia).
  assert (0 < IZR n) by (apply IZR_lt; lia). assert (0 < IZR t) by (apply IZR_lt; lia).
  assert (0 < IZR (if (t' =? 0)%Z then 1 else t') \/ IZR (if (t' =? 0)%Z then 1 else t') <> 0) as Ht.
  { right. destruct (t' =? 0)%Z eqn:E; apply not_0_IZR; [lia|]. by apply Z.eqb_neq in E. }
  assert (IZR (if (t' =? 0)%Z then 1 else t') <> 0) by (destruct Ht; [lra|done]).
  assert (IZR n / IZR t <> 0).
  { apply Rgt_not_eq. apply Rmult_gt_0_compat; [lra|]. by apply Rinv_0_lt_compat. }
  split; field; repeat split; try lra; try done.
Qed.

Lemma one_label_robinson n t t' : (1 <= n <= t)%Z ->
  robinson n t 0 t' = 1 - 225 / 1000 / (45 / 100 + IZR n) /\
  robinson 0 t' n t = 225 / 1000 / (45 / 100 + IZR n).
Proof.
  intros H. destruct (one_label_share n t t' H) as [E1 E2]. unfold robinson. cbv zeta.
  rewrite E1, E2, Z.add_0_l, Z.add_0_r. assert (1 <= IZR n) by (apply IZR_le; lia).
  split; field; lra.
Qed.

Lemma strong_far {M : machine} (q : R) : 0 <= q <= 1 -> 1 / 4 <= Rabs (q - 1 / 2) -> strong (A:=D) q = true.
Proof.
  intros H01 Hq. unfold strong, strength, nge. cbn [nabs nsub nQ nlt mnum].
  rewrite mhalf, (mb (q - 1 / 2) 1), (mb (1 / 10) 1) by (first [apply Rabs_le; lra | simpl; lra]).
  destruct (rltb _ _) eqn:El; [|done]. exfalso. apply rltb_true in El.
  assert (b64 (1 / 10) <= 1 / 4) as B2.
  { rewrite <- b64_quarter. apply (rnd_mono b64 rounding_b64). lra. }
  assert (1 / 4 <= Rabs (b64 (q - 1 / 2))) as B1; [|lra].
  destruct (Rle_dec 0 (q - 1 / 2)) as [H0|H0].
  - rewrite Rabs_pos_eq in Hq by done. eapply Rle_trans; [|apply Rle_abs].
    rewrite <- b64_quarter. by apply (rnd_mono b64 rounding_b64).
  - rewrite Rabs_left in Hq by lra. rewrite <- Rabs_Ropp. eapply Rle_trans; [|apply Rle_abs].
    assert (b64 (q - 1 / 2) <= b64 (- (1 / 4))) by (apply (rnd_mono b64 rounding_b64); lra).
    assert (b64 (- (1 / 4)) = - (1 / 4)); [|lra].
    unfold b64. rewrite round_NE_opp. f_equal. apply b64_quarter.
Qed.

Lemma matched_length bg h ms : matched bg h ms -> (length ms <= length h)%nat.
Proof.
  induction 1; rewrite ?app_length in *; simpl in *; lia.
Qed.

(** The side of a probability a label stands for. *)
Definition side (b : bool) (p : R) : R := if b then p else 1 - p.

Section once.
  Context {M : machine} (it : set_order) (Hit : set_order_ok it) (h : list call) (ms : list message).
  Context (Hm : matched false h ms) (Hb : (Z.of_nat (length h) < 2 ^ 48)%Z).
  Context (s : stream) (b : bool) (k : Z).
  Context (Hk : (1 <= k)%Z) (Hw : forall w, w ∈ elems s -> containing (negb b) w ms = 0%Z /\ (k <= containing b w ms)%Z).
  Notation o := (fst (run mem_backend it h (c_new false ∅ : dobj))).

  Lemma few_messages : bounded_set ms.
  Proof. unfold bounded_set. pose proof (matched_length _ _ _ Hm). lia. Qed.

  Lemma word_side w q : w ∈ elems s -> spam_probability o w = Ok q ->
    1 - 225 / 1000 / (45 / 100 + IZR k) - 2 / 10 ^ 15 <= side b q.
  Proof.
    intros Hin Hq. destruct (Hw w Hin) as [H0 H1].
    destruct (matched_spam_probability it Hit false _ _ Hm few_messages w) as (q'&Hq'&_&Nq&_).
    rewrite Hq in Hq'. injection Hq' as <-. apply near9 in Nq; [|destruct b; simpl in *; lia].
    pose proof (containing_le b w ms) as Hle.
    destruct (one_label_robinson (containing b w ms) (total b ms) (total (negb b) ms) ltac:(lia)) as [E1 E2].
    assert (IZR k <= IZR (containing b w ms)) as Hkr by (by apply IZR_le).
    assert (1 <= IZR k) as Hk1 by (by apply IZR_le).
    assert (225 / 1000 / (45 / 100 + IZR (containing b w ms)) <= 225 / 1000 / (45 / 100 + IZR k)) as Hd.
    { apply Rmult_le_compat_l; [lra|]. apply Rinv_le_contravar; lra. }
    assert (0 < 225 / 1000 / (45 / 100 + IZR (containing b w ms)) <= 1) as Hr.
    { split; [apply Rmult_lt_0_compat; [lra|apply Rinv_0_lt_compat; lra]|].
      apply Rle_trans with (1 := Hd). apply Rmult_le_reg_r with (45 / 100 + IZR k); [lra|].
      unfold Rdiv at 1. rewrite Rmult_assoc, Rinv_l by lra. lra. }
    set (x := 225 / 1000 / (45 / 100 + IZR (containing b w ms))) in *.
    replace (10 ^ 15) with 1000000000000000 in * by (simpl; ring).
    destruct b; simpl in *; rewrite H0 in Nq.
    - rewrite E1 in Nq. apply Rabs_le_inv in Nq. lra.
    - rewrite E2 in Nq. apply Rabs_le_inv in Nq. lra.
  Qed.

  Lemma side_low : q0 <= 1 - 225 / 1000 / (45 / 100 + IZR k) - 2 / 10 ^ 15.
  Proof.
    replace (10 ^ 15) with 1000000000000000 by (simpl; ring).
    assert (1 <= IZR k) as Hk1 by (by apply IZR_le).
    assert (225 / 1000 / (45 / 100 + IZR k) <= 225 / 1000 / (145 / 100)) as Hd.
    { apply Rmult_le_compat_l; [lra|]. apply Rinv_le_contravar; lra. }
    unfold q0. lra.
  Qed.

  Lemma once_scores : Forall (fun m => WNone ∉ m.1) ms -> one_type false (elems s) -> elems s <> [] ->
    exists o' p ev l, spamprob_evidence mem_backend it s o = (o', Ok (p, ev)) /\
      Rabs (side b p - combined_score l) <= 4 / 10 ^ 12 /\ l <> [] /\
      Forall (fun x => 1 - 225 / 1000 / (45 / 100 + IZR k) - 2 / 10 ^ 15 <= x < 1) l /\
      (forall w1 w2, w1 ∈ elems s -> w2 ∈ elems s -> w1 <> w2 -> (2 <= length l)%nat).
  Proof.
    intros Hnone Hty Hne.
    destruct (score_returns_b64 it Hit false _ _ Hm few_messages s Hnone Hty) as (o'&p&ev&E).
    destruct (score_b64 it Hit false h s p ev o' Hb E) as (vH&vS&rest&Eev&Hr&_&Hp&_).
    destruct (clues_uni mnum_total it Hit _ _ _ _ _ E) as (evH&evS&used&Eev'&Nd&_&Hin&Hout).
    rewrite Eev in Eev'. injection Eev' as _ _ <-.
    exists o', p, ev, (side b <$> rest.*2). split; [done|].
    assert (forall w, w ∈ elems s -> w ∈ rest.*1 \/ length rest = 150%nat) as Hall.
    { intros w Hws. destruct (decide (w ∈ rest.*1)) as [?|Hn]; [by left|right].
      destruct (matched_spam_probability it Hit false _ _ Hm few_messages w) as (q&Hq&Rq&_).
      destruct (Hout w q Hws Hn Hq) as [Hs|[? _]]; [|done]. exfalso.
      rewrite strong_far in Hs; [done|pose proof u_pos; lra|].
      pose proof (word_side w q Hws Hq) as H1. pose proof side_low as H2. unfold q0 in H2.
      destruct b; simpl in H1; [rewrite Rabs_pos_eq|rewrite Rabs_left]; lra. }
    split_and!.
    - destruct b.
      + change (side true p) with p. change (side true <$> rest.*2) with (id <$> rest.*2).
        by rewrite list_fmap_id.
      + change (side false p) with (1 - p). assert (combined_score (side false <$> rest.*2) = 1 - combined_score (rest.*2)) as -> by apply indicators_mirror.
        replace (1 - p - (1 - combined_score (rest.*2))) with (- (p - combined_score (rest.*2))) by ring.
        by rewrite Rabs_Ropp.
    - destruct (elems s) as [|w ws] eqn:Es; [done|]. destruct (Hall w) as [H1|H1]; [left| |].
      + destruct rest; [by apply elem_of_nil in H1|done].
      + by destruct rest.
    - apply Forall_fmap, Forall_fmap, Forall_forall. intros [w q] Hwq. simpl.
      destruct (Hin w q Hwq) as (Hws&Hq&_). split; [by apply (word_side w)|].
      rewrite Forall_forall in Hr. specialize (Hr _ Hwq). simpl in Hr. destruct b; simpl; lra.
    - intros w1 w2 H1 H2 Hn. rewrite !fmap_length.
      destruct (Hall w1 H1) as [R1|R1]; [|lia]. destruct (Hall w2 H2) as [R2|R2]; [|lia].
      destruct rest as [|[u1 q1] [|[u2 q2] rest]]; simpl in *; [by apply elem_of_nil in R1| |lia].
      apply elem_of_list_singleton in R1, R2. congruence.
  Qed.
End once.

(** ** The cutoffs *)
Lemma b64_close x : 1 / 8 <= x <= 1 -> Rabs (b64 x - x) <= 1 / 10 ^ 12.
Proof.
  intros H. pose proof (near_b64 x) as N. 
  assert (bpow radix2 (-1022) <= x) as Hx.
  { apply Rle_trans with (bpow radix2 (-3)); [apply bpow_le; lia|simpl; lra]. }
  specialize (N Hx). apply near_abs in N; [|rewrite u_val; simpl; lra].
  rewrite u_val in N. change (INR 1) with 1 in N. replace (10 ^ 12) with 1000000000000 by (simpl; ring). lra.
Qed.

Lemma certainly_spam {M : machine} (p : R) : 9 / 10 + 1 / 2000 < p -> classify D p = spam.
Proof.
  intros H. unfold classify, ham_cutoff, spam_cutoff. cbn [nlt nQ mnum].
  rewrite (mb (9 / 10) 1), (mb (1 / 5) 1) by (first [apply Rabs_le; lra | simpl; lra]).
  pose proof (Rabs_le_inv _ _ (b64_close (9 / 10) ltac:(lra))) as H1.
  pose proof (Rabs_le_inv _ _ (b64_close (1 / 5) ltac:(lra))) as H2.
  replace (10 ^ 12) with 1000000000000 in * by (simpl; ring).
  destruct (rltb p _) eqn:E1; [apply rltb_true in E1; lra|].
  destruct (rltb _ p) eqn:E2; [done|]. apply rltb_false in E2. lra.
Qed.

Lemma certainly_ham {M : machine} (p : R) : p < 1 / 5 - 1 / 2000 -> classify D p = ham.
Proof.
  intros H. unfold classify, ham_cutoff. cbn [nlt nQ mnum].
  rewrite (mb (1 / 5) 1) by (first [apply Rabs_le; lra | simpl; lra]).
  pose proof (Rabs_le_inv _ _ (b64_close (1 / 5) ltac:(lra))) as H2.
  replace (10 ^ 12) with 1000000000000 in * by (simpl; ring).
  destruct (rltb p _) eqn:E1; [done|apply rltb_false in E1; lra].
Qed.

Lemma certainly_unsure {M : machine} (p : R) : 1 / 5 + 1 / 2000 < p < 9 / 10 - 1 / 2000 -> classify D p = unsure.
Proof.
  intros H. unfold classify, ham_cutoff, spam_cutoff. cbn [nlt nQ mnum].
  rewrite (mb (9 / 10) 1), (mb (1 / 5) 1) by (first [apply Rabs_le; lra | simpl; lra]).
  pose proof (Rabs_le_inv _ _ (b64_close (9 / 10) ltac:(lra))) as H1.
  pose proof (Rabs_le_inv _ _ (b64_close (1 / 5) ltac:(lra))) as H2.
  replace (10 ^ 12) with 1000000000000 in * by (simpl; ring).
  destruct (rltb p _) eqn:E1; [apply rltb_true in E1; lra|].
  destruct (rltb _ p) eqn:E2; [apply rltb_true in E2; lra|done].
Qed.

Section decide.
  Context {M : machine} (it : set_order) (Hit : set_order_ok it) (h : list call) (ms : list message).
  Context (Hm : matched false h ms) (Hb : (Z.of_nat (length h) < 2 ^ 48)%Z).
  Context (Hnone : Forall (fun m => WNone ∉ m.1) ms).
  Context (s : stream) (Hty : one_type false (elems s)) (Hne : elems s <> []).
  Notation o := (fst (run mem_backend it h (c_new false ∅ : dobj))).

  Lemma several_words b w1 w2 : w1 ∈ elems s -> w2 ∈ elems s -> w1 <> w2 ->
    (forall w, w ∈ elems s -> containing (negb b) w ms = 0%Z /\ (1 <= containing b w ms)%Z) ->
    exists o' p ev, spamprob_evidence mem_backend it s o = (o', Ok (p, ev)) /\
      9 / 10 < side b p /\ classify D p = (if b then spam else ham).
  Proof.
    intros H1 H2 Hn Hw.
    destruct (once_scores it Hit h ms Hm Hb s b 1 ltac:(lia) Hw Hnone Hty Hne) as (o'&p&ev&l&E&Hp&_&Hl&Hlen).
    exists o', p, ev. split; [done|]. specialize (Hlen w1 w2 H1 H2 Hn).
    assert (9 / 10 + 1 / 1000 < combined_score l) as Hc.
    { apply combined_several; [done|]. eapply Forall_impl; [exact Hl|]. intros x Hx.
      pose proof (side_low 1 ltac:(lia)). unfold high. lra. }
    apply Rabs_le_inv in Hp. replace (10 ^ 12) with 1000000000000 in Hp by (simpl; ring).
    split; [lra|]. destruct b; unfold side in Hp; [apply certainly_spam|apply certainly_ham]; lra.
  Qed.

  Lemma few_words b k : (1 <= k)%Z ->
    (forall w, w ∈ elems s -> containing (negb b) w ms = 0%Z /\ (k <= containing b w ms)%Z) ->
    exists o' p ev, spamprob_evidence mem_backend it s o = (o', Ok (p, ev)) /\
      (84 / 100 < side b p) /\ ((2 <= k)%Z -> 9 / 10 + 1 / 2000 < side b p).
  Proof.
    intros Hk Hw.
    destruct (once_scores it Hit h ms Hm Hb s b k Hk Hw Hnone Hty Hne) as (o'&p&ev&l&E&Hp&Hl0&Hl&_).
    exists o', p, ev. split; [done|].
    apply Rabs_le_inv in Hp. replace (10 ^ 12) with 1000000000000 in Hp by (simpl; ring).
    pose proof (side_low k Hk) as Hlow. unfold q0 in Hlow.
    assert (exists x, 1 - 225 / 1000 / (45 / 100 + IZR k) - 2 / 10 ^ 15 <= x < 1 /\
              (combined_score l = x \/ 9 / 10 + 1 / 1000 < combined_score l)) as (x&Hx&Hc).
    { destruct l as [|x [|y l]]; [done| |].
      - exists x. split; [by inversion Hl|]. left. apply combined_single.
        inversion Hl; subst. lra.
      - exists x. split; [by inversion Hl|]. right. apply combined_several; [simpl; lia|].
        eapply Forall_impl; [exact Hl|]. intros z Hz. unfold high, q0. lra. }
    split; [destruct Hc; lra|]. intros H2. destruct Hc as [Hc|Hc]; [|lra].
    assert (225 / 1000 / (45 / 100 + IZR k) <= 225 / 1000 / (245 / 100)) as Hd.
    { assert (2 <= IZR k) by (by apply IZR_le).
      apply Rmult_le_compat_l; [lra|]. apply Rinv_le_contravar; lra. }
    replace (10 ^ 15) with 1000000000000000 in Hx by (simpl; ring). lra.
  Qed.

  Lemma few_words_ham : 
    (forall w, w ∈ elems s -> containing true w ms = 0%Z /\ (1 <= containing false w ms)%Z) ->
    exists o' p ev, spamprob_evidence mem_backend it s o = (o', Ok (p, ev)) /\
      p < 2 / 10 /\ classify D p = ham.
  Proof.
    intros Hw. destruct (few_words false 1 ltac:(lia) Hw) as (o'&p&ev&E&H&_).
    exists o', p, ev. split; [done|]. unfold side in H. split; [lra|]. apply certainly_ham. lra.
  Qed.

  Lemma twice_spam : 
    (forall w, w ∈ elems s -> containing false w ms = 0%Z /\ (2 <= containing true w ms)%Z) ->
    exists o' p ev, spamprob_evidence mem_backend it s o = (o', Ok (p, ev)) /\
      9 / 10 < p /\ classify D p = spam.
  Proof.
    intros Hw. destruct (few_words true 2 ltac:(lia) Hw) as (o'&p&ev&E&_&H).
    exists o', p, ev. split; [done|]. specialize (H ltac:(lia)). unfold side in H.
    split; [lra|]. apply certainly_spam. lra.
  Qed.
End decide.

(** ** The score of a single word *)
Lemma single_word {M : machine} it h ms w : set_order_ok it -> matched false h ms -> (Z.of_nat (length h) < 2 ^ 48)%Z ->
  Forall (fun m => WNone ∉ m.1) ms -> (0 < containing true w ms + containing false w ms)%Z ->
  let r := robinson (containing true w ms) (total true ms) (containing false w ms) (total false ms) in
  0 <= r <= 1 -> 26 / 100 <= Rabs (r - 1 / 2) ->
  exists o' p ev, spamprob_evidence mem_backend it (SList [w])
      (fst (run mem_backend it h (c_new false ∅ : dobj))) = (o', Ok (p, ev)) /\
    Rabs (p - r) <= 1 / 10 ^ 11.
Proof.
  intros Hit Hm Hb Hnone Hc r Hr01 Hr.
  assert (bounded_set ms) as Hbs by by apply (few_messages h).
  assert (one_type false (elems (SList [w]))) as Hty.
  { intros w1 w2. simpl. rewrite !elem_of_list_singleton. by intros -> ->. }
  destruct (score_returns_b64 it Hit false _ _ Hm Hbs (SList [w]) Hnone Hty) as (o'&p&ev&E).
  destruct (score_b64 it Hit false h (SList [w]) p ev o' Hb E) as (vH&vS&rest&Eev&Hrs&_&Hp&_).
  destruct (clues_uni mnum_total it Hit _ _ _ _ _ E) as (evH&evS&used&Eev'&Nd&_&Hin&Hout).
  rewrite Eev in Eev'. injection Eev' as _ _ <-.
  exists o', p, ev. split; [done|].
  destruct (matched_spam_probability it Hit false _ _ Hm Hbs w) as (q&Hq&Rq&Nq&_).
  specialize (Nq Hc). apply near9 in Nq. fold r in Nq.
  assert (Rabs (q - r) <= 2 / 10 ^ 15) as Nq'.
  { eapply Rle_trans; [exact Nq|]. replace (10 ^ 15) with 1000000000000000 by (simpl; ring). lra. }
  assert (1 / 4 <= Rabs (q - 1 / 2)) as Hs.
  { replace (r - 1 / 2) with ((q - 1 / 2) - (q - r)) in Hr by ring.
    pose proof (Rabs_triang (q - 1 / 2) (- (q - r))) as Ht. rewrite Rabs_Ropp in Ht.
    replace (10 ^ 15) with 1000000000000000 in Nq' by (simpl; ring). unfold Rminus in *. lra. }
  assert (forall w' q', (w', q') ∈ rest -> w' = w /\ q' = q) as Hone.
  { intros w' q' H. destruct (Hin w' q' H) as (H1&H2&_). simpl in H1.
    apply elem_of_list_singleton in H1 as ->. rewrite Hq in H2. by injection H2 as ->. }
  destruct rest as [|[w1 q1] rest].
  { exfalso. destruct (Hout w q) as [H|[H _]]; [left|by apply not_elem_of_nil|done| |done].
    rewrite strong_far in H; [done|pose proof u_pos; lra|done]. }
  destruct (Hone w1 q1) as [-> ->]; [left|].
  destruct rest as [|[w2 q2] rest].
  - simpl in Hp. rewrite combined_single in Hp by (by inversion Hrs).
    replace (p - r) with ((p - q) + (q - r)) by ring.
    eapply Rle_trans; [apply Rabs_triang|].
    replace (10 ^ 15) with 1000000000000000 in Nq' by (simpl; ring).
    replace (10 ^ 12) with 1000000000000 in Hp by (simpl; ring).
    replace (10 ^ 11) with 100000000000 by (simpl; ring). lra.
  - exfalso. destruct (Hone w2 q2) as [-> ->]; [right; left|].
    apply NoDup_cons in Nd as [Hnd _]. apply Hnd. left.
Qed.

(** ** The message just learned *)
Lemma containing_learned b b' w ws ms :
  containing b w ((ws, b') :: ms) = ((if eqb b b' && bool_decide (w ∈ ws) then 1 else 0) + containing b w ms)%Z.
Proof. done. Qed.

Lemma learned_one_label s b ms w : w ∈ elems s ->
  (forall w, w ∈ elems s -> containing (negb b) w ms = 0%Z) ->
  containing (negb b) w ((elems s, b) :: ms) = 0%Z /\ (1 <= containing b w ((elems s, b) :: ms))%Z.
Proof.
  intros Hw H0. rewrite !containing_learned, H0 by done. rewrite bool_decide_eq_true_2 by done.
  pose proof (containing_le b w ms). destruct b; simpl; lia.
Qed.

Lemma tokens_uni s w : w ∈ elems s <-> tokens_of false s w.
Proof. by destruct s. Qed.

Lemma learned_matched h ms s b : matched false h ms ->
  matched false (h ++ [CLearn s b]) ((elems s, b) :: ms).
Proof. intros Hm. apply matched_learn; [done|]. intros w. apply tokens_uni. Qed.

Section learned.
  Context {M : machine} (it : set_order) (Hit : set_order_ok it) (h : list call) (ms : list message).
  Context (Hm : matched false h ms) (Hb : (Z.of_nat (S (length h)) < 2 ^ 48)%Z).
  Context (Hnone : Forall (fun m => WNone ∉ m.1) ms).
  Context (s : stream) (Hty : one_type false (elems s)) (Hn : WNone ∉ elems s).

  Lemma learn_once b w1 w2 : w1 ∈ elems s -> w2 ∈ elems s -> w1 <> w2 ->
    (forall w, w ∈ elems s -> containing (negb b) w ms = 0%Z) ->
    exists o' p ev, spamprob_evidence mem_backend it s
        (fst (run mem_backend it (h ++ [CLearn s b]) (c_new false ∅ : dobj))) = (o', Ok (p, ev)) /\
      9 / 10 < (if b then p else 1 - p) /\ classify D p = (if b then spam else ham).
  Proof.
    intros H1 H2 Hne H0.
    apply (several_words it Hit _ _ (learned_matched h ms s b Hm)) with w1 w2; try done.
    - rewrite app_length. simpl. lia.
    - by constructor.
    - intros E. rewrite E in H1. by apply elem_of_nil in H1.
    - intros w Hw. by apply learned_one_label.
  Qed.

  Lemma learn_ham_once : elems s <> [] ->
    (forall w, w ∈ elems s -> containing true w ms = 0%Z) ->
    exists o' p ev, spamprob_evidence mem_backend it s
        (fst (run mem_backend it (h ++ [CLearn s false]) (c_new false ∅ : dobj))) = (o', Ok (p, ev)) /\
      p < 2 / 10 /\ classify D p = ham.
  Proof.
    intros Hne H0.
    apply (few_words_ham it Hit _ _ (learned_matched h ms s false Hm)); try done.
    - rewrite app_length. simpl. lia.
    - by constructor.
    - intros w Hw. by apply (learned_one_label s false).
  Qed.

  Lemma learn_spam_twice : elems s <> [] -> (Z.of_nat (S (S (length h))) < 2 ^ 48)%Z ->
    (forall w, w ∈ elems s -> containing false w ms = 0%Z) ->
    exists o' p ev, spamprob_evidence mem_backend it s
        (fst (run mem_backend it (h ++ [CLearn s true; CLearn s true]) (c_new false ∅ : dobj))) = (o', Ok (p, ev)) /\
      9 / 10 < p /\ classify D p = spam.
  Proof.
    clear Hb. intros Hne Hb2 H0.
    assert (h ++ [CLearn s true; CLearn s true] = (h ++ [CLearn s true]) ++ [CLearn s true]) as ->
      by by rewrite <- app_assoc.
    apply (twice_spam it Hit _ _ (learned_matched _ _ s true (learned_matched h ms s true Hm))); try done.
    - rewrite !app_length. simpl. lia.
    - constructor; [done|]. by constructor.
    - intros w Hw. destruct (learned_one_label s true ms w Hw H0) as [E1 E2].
      rewrite !(containing_learned _ _ _ _ (_ :: _)). change (negb true) with false in E1.
      rewrite E1. rewrite bool_decide_eq_true_2 by done.
      change (eqb true true && true) with true. cbv iota. change (eqb false true && true) with false. lia.
  Qed.
End learned.

(** ** Cases *)
Notation a := (WStr (str "a")).
Notation c := (WStr (str "c")).

Lemma matched_a : matched false [CLearn (SList [a]) true] [([a], true)].
Proof. apply (matched_learn false [] [] (SList [a]) true [a]); [constructor|done]. Qed.

Lemma one_word_once {M : machine} : exists o' p ev, spamprob_evidence mem_backend remove_dups (SList [a])
    (fst (run mem_backend remove_dups [CLearn (SList [a]) true] (c_new false ∅ : dobj))) = (o', Ok (p, ev)) /\
  p < 9 / 10 /\ classify D p = unsure.
Proof.
  assert (containing true a [([a], true)] = 1%Z) as Ca by (by vm_compute).
  assert (containing false a [([a], true)] = 0%Z) as Cb by done.
  destruct (one_label_robinson 1 1 0 ltac:(lia)) as [Er _].
  destruct (single_word remove_dups [CLearn (SList [a]) true] [([a], true)] a remove_dups_ok matched_a) as (o'&p&ev&E&Hp).
  - simpl; lia.
  - constructor; [by intros ?%elem_of_list_singleton|constructor].
  - lia.
  - rewrite Ca, Cb. change (total true _) with 1%Z. change (total false _) with 0%Z. rewrite Er. lra.
  - rewrite Ca, Cb. change (total true _) with 1%Z. change (total false _) with 0%Z. rewrite Er.
    rewrite Rabs_pos_eq; lra.
  - rewrite Ca, Cb in Hp. change (total true _) with 1%Z in Hp. change (total false _) with 0%Z in Hp.
    rewrite Er in Hp. apply Rabs_le_inv in Hp. replace (10 ^ 11) with 100000000000 in Hp by (simpl; ring).
    exists o', p, ev. split; [done|]. split; [lra|]. apply certainly_unsure. lra.
Qed.

(** Twelve messages c as spam and the message a as ham *)
Definition twelve : list call := replicate 12 (CLearn (SList [c]) true) ++ [CLearn (SList [a]) false].
Definition twelve_ms : list message := ([a], false) :: replicate 12 ([c], true).

Lemma matched_twelve : matched false twelve twelve_ms.
Proof.
  apply (matched_learn false _ _ (SList [a]) false [a]); [|done].
  assert (forall n, matched false (replicate n (CLearn (SList [c]) true)) (replicate n ([c], true))) as H.
  { intros n. induction n as [|n IH]; [constructor|].
    assert (replicate (S n) (CLearn (SList [c]) true) = replicate n (CLearn (SList [c]) true) ++ [CLearn (SList [c]) true]) as ->.
    { apply (replicate_S_end n). }
    by apply (matched_learn false _ _ (SList [c]) true [c]). }
  apply H.
Qed.

Lemma no_none_twelve b : Forall (fun m : message => WNone ∉ m.1) (if b : bool then ([a], true) :: twelve_ms else twelve_ms).
Proof. apply (bool_decide_unpack _). destruct b; by vm_compute. Qed.

Lemma spam_lowers {M : machine} : exists o1 o2 p1 p2 ev1 ev2,
  spamprob_evidence mem_backend remove_dups (SList [a])
    (fst (run mem_backend remove_dups twelve (c_new false ∅ : dobj))) = (o1, Ok (p1, ev1)) /\
  spamprob_evidence mem_backend remove_dups (SList [a])
    (fst (run mem_backend remove_dups (twelve ++ [CLearn (SList [a]) true]) (c_new false ∅ : dobj))) = (o2, Ok (p2, ev2)) /\
  p2 < p1.
Proof.
  assert (containing true a twelve_ms = 0%Z) as A1 by (by vm_compute).
  assert (containing false a twelve_ms = 1%Z) as A2 by (by vm_compute).
  assert (containing true a (([a], true) :: twelve_ms) = 1%Z) as B1 by (by vm_compute).
  assert (containing false a (([a], true) :: twelve_ms) = 1%Z) as B2 by (by vm_compute).
  assert (total true twelve_ms = 12%Z) as A3 by (by vm_compute).
  assert (total false twelve_ms = 1%Z) as A4 by (by vm_compute).
  assert (total true (([a], true) :: twelve_ms) = 13%Z) as B3 by (by vm_compute).
  assert (total false (([a], true) :: twelve_ms) = 1%Z) as B4 by (by vm_compute).
  destruct (one_label_robinson 1 1 12 ltac:(lia)) as [_ Er].
  assert (robinson 1 13 1 1 = (225 / 1000 + 2 * (1 / 14)) / (245 / 100)) as Er'.
  { assert (spam_share 1 13 1 1 = 1 / 14) as Es.
    { unfold spam_share, fraction, nonempty_total. simpl. field. }
    unfold robinson. cbv zeta. rewrite Es. change (1 + 1)%Z with 2%Z. field. }
  destruct (single_word remove_dups twelve twelve_ms a remove_dups_ok matched_twelve) as (o1&p1&ev1&E1&H1).
  { vm_compute. done. }
  { exact (no_none_twelve false). }
  { lia. }
  { rewrite A1, A2, A3, A4, Er. lra. }
  { rewrite A1, A2, A3, A4, Er. rewrite Rabs_left; lra. }
  destruct (single_word remove_dups (twelve ++ [CLearn (SList [a]) true]) (([a], true) :: twelve_ms) a remove_dups_ok
    (learned_matched _ _ (SList [a]) true matched_twelve)) as (o2&p2&ev2&E2&H2).
  { vm_compute. done. }
  { exact (no_none_twelve true). }
  { lia. }
  { rewrite B1, B2, B3, B4, Er'. lra. }
  { rewrite B1, B2, B3, B4, Er'. rewrite Rabs_left; lra. }
  rewrite A1, A2, A3, A4, Er in H1. rewrite B1, B2, B3, B4, Er' in H2.
  apply Rabs_le_inv in H1, H2. replace (10 ^ 11) with 100000000000 in * by (simpl; ring).
  exists o1, o2, p1, p2, ev1, ev2. split; [done|]. split; [done|]. lra.
Qed.

(** ** Words that are as frequent in ham as in spam *)
Lemma weak_close {M : machine} (q : R) : Rabs (q - 1 / 2) <= 1 / 16 -> strong (A:=D) q = false.
Proof.
  intros Hq. unfold strong, strength, nge. cbn [nabs nsub nQ nlt mnum]. apply Rabs_le_inv in Hq.
  rewrite mhalf, (mb (q - 1 / 2) 1), (mb (1 / 10) 1) by (first [apply Rabs_le; lra | simpl; lra]).
  assert (b64 (1 / 16) = 1 / 16) as Ef.
  { replace (1 / 16) with (bpow radix2 (-4)) by (simpl; lra). apply b64_bpow. lia. }
  pose proof (Rabs_le_inv _ _ (b64_close (1 / 8) ltac:(lra))) as He.
  assert (b64 (1 / 8) = 1 / 8) as Ee.
  { replace (1 / 8) with (bpow radix2 (-3)) by (simpl; lra). apply b64_bpow. lia. }
  assert (b64 (q - 1 / 2) <= 1 / 16) by (rewrite <- Ef; apply (rnd_mono b64 rounding_b64); lra).
  assert (- (1 / 16) <= b64 (q - 1 / 2)).
  { apply Ropp_le_cancel. rewrite Ropp_involutive. unfold b64. rewrite <- round_NE_opp.
    fold b64. rewrite <- Ef. apply (rnd_mono b64 rounding_b64). lra. }
  assert (0 < 1 / 16) by lra.
  assert (9 / 100 < b64 (1 / 10)) as Ht.
  { apply Rlt_le_trans with (b64 (3 / 32)).
    - assert (b64 (3 / 32) = 3 / 32); [|lra]. unfold b64. apply round_generic; [apply valid_rnd_N|].
      apply generic_format_FLT. apply (FLT_spec _ _ _ _ (Float radix2 3 (-5))).
      + unfold F2R. simpl. lra.
      + cbn [Fnum]. change (Zpower radix2 53) with (2 ^ 53)%Z. lia.
      + cbn [Fexp]. lia.
    - apply (rnd_mono b64 rounding_b64). lra. }
  destruct (rltb _ _) eqn:El; [done|]. exfalso. apply rltb_false in El.
  assert (Rabs (b64 (q - 1 / 2)) <= 1 / 16) by (by apply Rabs_le). lra.
Qed.

Lemma even_robinson (x t y n : Z) : (0 < y <= n)%Z -> (0 < x <= t)%Z -> (x * n = y * t)%Z ->
  robinson x t y n = 1 / 2.
Proof.
  intros Hy Hx E.
  unfold robinson. cbv zeta. assert (spam_share x t y n = 1 / 2) as ->.
  { unfold spam_share, fraction, nonempty_total.
    replace (t =? 0)%Z with false by (symmetry; apply Z.eqb_neq; lia).
    replace (n =? 0)%Z with false by (symmetry; apply Z.eqb_neq; lia).
    assert (0 < IZR t) by (apply IZR_lt; lia). assert (0 < IZR n) by (apply IZR_lt; lia).
    assert (0 < IZR y) by (apply IZR_lt; lia).
    assert (IZR x = IZR y * IZR t / IZR n) as ->.
    { apply Rmult_eq_reg_r with (IZR n); [|lra]. replace (IZR y * IZR t / IZR n * IZR n) with (IZR y * IZR t) by (field; lra).
      rewrite <- !mult_IZR. by rewrite E. }
    field. repeat split; try lra. }
  assert (0 < IZR (y + x)) by (apply IZR_lt; lia). field. lra.
Qed.

Section even.
  Context {M : machine} (it : set_order) (Hit : set_order_ok it) (bg : bool) (h : list call) (ms : list message).
  Context (Hm : matched bg h ms) (Hb : (Z.of_nat (length ms) < 2 ^ 48)%Z).
  Notation o := (fst (run mem_backend it h (c_new bg ∅ : dobj))).

  Lemma even_weak w : even_word ms w -> exists q, spam_probability o w = Ok q /\ strong q = false.
  Proof.
    intros He. destruct (matched_spam_probability it Hit bg _ _ Hm Hb w) as (q&Hq&_&Nq&Zq).
    exists q. split; [done|]. apply weak_close.
    destruct He as [[E1 E2]|(E0&E1&E2)].
    - rewrite Zq by lia. rewrite Rminus_diag_eq by done. rewrite Rabs_R0. lra.
    - pose proof (containing_le true w ms). pose proof (containing_le false w ms).
      specialize (Nq ltac:(lia)). apply near9 in Nq. rewrite even_robinson in Nq by lia.
      eapply Rle_trans; [exact Nq|]. replace (10 ^ 15) with 1000000000000000 by (simpl; ring). lra.
  Qed.

  Lemma even_scores s : Forall (fun m => WNone ∉ m.1) ms ->
    (forall w, candidate bg (elems s) w -> even_word ms w) ->
    exists o' H S, spamprob_evidence mem_backend it s o =
      (o', Ok (1 / 2, [(WBytes (str "*H*"), H); (WBytes (str "*S*"), S)])).
  Proof.
    intros Hnone He.
    assert (o_store o !! WNone = None) as Hn.
    { destruct (matched_view it Hit bg _ _ Hm) as (_&_&T3). rewrite T3. unfold expected_record.
      assert (forall b, containing b WNone ms = 0%Z) as Hc.
      { intros b. clear -Hnone. induction Hnone as [|[ws b'] ms Hw _ IH]; simpl in *; [done|].
        rewrite bool_decide_eq_false_2 by done. rewrite andb_false_r. lia. }
      by rewrite !Hc. }
    destruct (no_clues_score (A:=D) it bg h s mnum_total Hit mnum_sane Hn) as (o'&H&S'&E).
    { intros w Hw. by apply even_weak, He. }
    exists o', H, S'. rewrite E. cbn [nQ mnum]. by rewrite mhalf.
  Qed.

  Lemma even_not_a_clue s p ev o' : spamprob_evidence mem_backend it s o = (o', Ok (p, ev)) ->
    Forall (fun x => ~ even_word ms x.1) (drop 2 ev).
  Proof.
    intros E. assert (mgood o) as Hg by apply (reachable_good it Hit).
    destruct (score_evidence_inv it s o o' p ev Hg E) as (cs&S'&H'&Ec&_&->).
    destruct (evidence_tail mnum_total cs S' H') as (rest&->&HP&_). simpl. rewrite drop_0.
    rewrite HP. unfold ev_pairs. apply Forall_fmap, Forall_forall. intros cl Hc. simpl. intros He.
    pose proof (pclues_elem mnum_total it _ _ _ _ _ _ _ Hit Ec Hc) as Hw.
    apply word_clue_Ok in Hw as (_&_&Hq&Hd).
    change (spam_probability o (c_word cl) = Ok (c_prob cl)) in Hq.
    destruct (even_weak _ He) as (q'&Hq'&Hs). rewrite Hq in Hq'. injection Hq' as <-.
    pose proof (pclues_significant it Hit _ _ _ _ _ _ _ Ec Hc) as Hsig.
    unfold significant in Hsig. rewrite Hd in Hsig.
    unfold strong in Hs. unfold MINIMUM_PROB_STRENGTH in Hsig. congruence.
  Qed.
End even.

(** ** In the words of the specification *)
Lemma such_words {M : machine} it : set_order_ok it -> forall h ms, matched false h ms -> (Z.of_nat (length h) < 2 ^ 48)%Z ->
  Forall (fun m => WNone ∉ m.1) ms -> forall s, one_type false (elems s) -> forall b w1 w2,
  w1 ∈ elems s -> w2 ∈ elems s -> w1 <> w2 ->
  (forall w, w ∈ elems s -> only_in b 1 ms w) ->
  exists o' p ev, spamprob_evidence mem_backend it s
      (fst (run mem_backend it h (c_new false ∅ : dobj))) = (o', Ok (p, ev)) /\
    9 / 10 < (if b then p else 1 - p) /\ classify D p = (if b then spam else ham).
Proof.
  intros Hit h ms Hm Hb Hnone s Hty b w1 w2 H1 H2 Hn Hw.
  apply (several_words it Hit h ms Hm Hb Hnone s Hty) with w1 w2; try done.
  intros E. rewrite E in H1. by apply elem_of_nil in H1.
Qed.

Lemma once_case :
  matched false [CLearn (SList [WStr (str "a")]) true] [([WStr (str "a")], true)] /\
  (Z.of_nat (S (S (length [CLearn (SList [WStr (str "a")]) true]))) < 2 ^ 48)%Z /\
  Forall (fun m : message => WNone ∉ m.1) [([WStr (str "a")], true)] /\
  one_type false [WStr (str "a"); WStr (str "c")] /\ WNone ∉ [WStr (str "a"); WStr (str "c")] /\
  (forall w, w ∈ [WStr (str "a"); WStr (str "c")] -> containing (negb true) w [([WStr (str "a")], true)] = 0%Z) /\
  only_in true 1 [([WStr (str "a")], true)] (WStr (str "a")).
Proof.
  split; [exact matched_a|]. split; [simpl; lia|]. split; [apply (bool_decide_unpack _); by vm_compute|].
  split; [|split; [apply (bool_decide_unpack _); by vm_compute|split; [done|]]].
  - intros w1 w2. rewrite !elem_of_cons, !elem_of_nil. by intros [->|[->|[]]] [->|[->|[]]].
  - unfold only_in. split; [done|]. vm_compute. done.
Qed.

Lemma learning_lowers {M : machine} : exists (h : list call) (s : stream) o1 o2 p1 p2 ev1 ev2, matched false h twelve_ms /\
  spamprob_evidence mem_backend remove_dups s
    (fst (run mem_backend remove_dups h (c_new false ∅ : dobj))) = (o1, Ok (p1, ev1)) /\
  spamprob_evidence mem_backend remove_dups s
    (fst (run mem_backend remove_dups (h ++ [CLearn s true]) (c_new false ∅ : dobj))) = (o2, Ok (p2, ev2)) /\
  p2 < p1.
Proof.
  destruct spam_lowers as (o1&o2&p1&p2&ev1&ev2&H). exists twelve, (SList [a]), o1, o2, p1, p2, ev1, ev2.
  split; [exact matched_twelve|done].
Qed.

Lemma even_case : let a := WStr (str "a") in let c := WStr (str "c") in
  let ms := [([a; c], false); ([a], false); ([a], true)] in
  matched false [CLearn (SList [a]) true; CLearn (SList [a]) false; CLearn (SList [a; c]) false] ms /\
  even_word ms a /\ ~ even_word ms c.
Proof.
  intros a' c' ms. split; [|split].
  - apply (matched_learn false [CLearn (SList [a]) true; CLearn (SList [a]) false] _ (SList [a; c]) false [a; c]); [|done].
    apply (matched_learn false [CLearn (SList [a]) true] _ (SList [a]) false [a]); [|done]. exact matched_a.
  - right. vm_compute. done.
  - intros [[_ H]|[H _]]; by vm_compute in H.
Qed.
