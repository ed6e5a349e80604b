(** * Joining two messages: classification, and messages that share words (C133) *)
From Coq Require Import String Reals Lra Lia.
From Flocq Require Import Core.
From Verif Require Import Py NumModel ClassifierModel TrainSpec TrainProofs ScoreProofs SortProofs ScoreSpec ClueProofs TileProofs CorpusProofs RealModel RealSpec RealProofs ExactProofs ApiProofs ShelveApiProofs
  FloatProofs FloatApiProofs MessageModel OnceSpec OnceProofs OnceCases SwaySpec FormulaProofs LeanProofs MirrorCases JoinSpec JoinProofs.
Local Open Scope R_scope.

Lemma spam_above {M : machine} (p : R) : classify D p = spam -> 9 / 10 - 1 / 10 ^ 12 <= p.
Proof.
  intros H. destruct (Rle_dec (9 / 10 - 1 / 10 ^ 12) p) as [?|Hn]; [done|exfalso].
  revert H. unfold classify, ham_cutoff, spam_cutoff. cbn [nlt nQ mnum].
  rewrite (mb (9 / 10) 1), (mb (1 / 5) 1) by (first [apply Rabs_le; lra | simpl; lra]).
  pose proof (Rabs_le_inv _ _ (b64_close (9 / 10) ltac:(lra))) as H1.
  destruct (rltb p _); [done|]. destruct (rltb _ p) eqn:E2; [|done]. apply rltb_true in E2. lra.
Qed.

Lemma ham_below {M : machine} (p : R) : classify D p = ham -> p <= 2 / 10 + 1 / 10 ^ 12.
Proof.
  intros H. destruct (Rle_dec p (2 / 10 + 1 / 10 ^ 12)) as [?|Hn]; [done|exfalso].
  revert H. unfold classify, ham_cutoff, spam_cutoff. cbn [nlt nQ mnum].
  rewrite (mb (9 / 10) 1), (mb (1 / 5) 1) by (first [apply Rabs_le; lra | simpl; lra]).
  pose proof (Rabs_le_inv _ _ (b64_close (1 / 5) ltac:(lra))) as H1.
  destruct (rltb p _) eqn:E1; [apply rltb_true in E1; lra|]. by destruct (rltb _ p).
Qed.

Section classes.
  Context {M : machine} (it : set_order) (Hit : set_order_ok it) (h : list call) (Hb : bounded h).
  Notation o := (fst (run mem_backend it h (c_new false ∅ : dobj))).

  Lemma classify_join s1 s2 s o1 o2 o3 (p1 p2 p3 : R) (ev1 ev2 ev3 : list (pyword * R)) : joins s1 s2 s ->
    spamprob_evidence mem_backend it s1 o = (o1, Ok (p1, ev1)) -> spamprob_evidence mem_backend it s2 o = (o2, Ok (p2, ev2)) ->
    spamprob_evidence mem_backend it s o = (o3, Ok (p3, ev3)) -> separate ev1 ev2 ->
    (classify D p1 = spam -> classify D p2 = spam -> classify D p3 <> ham) /\
    (classify D p1 = ham -> classify D p2 = ham -> classify D p3 <> spam).
  Proof.
    intros Hj E1 E2 E3 Hsep. split.
    - intros C1%spam_above C2%spam_above C3%ham_below.
      replace (10 ^ 12) with 1000000000000 in * by (simpl; ring).
      pose proof (score_join it Hit h Hb true (9 / 10 - 1 / 1000000000000) s1 s2 s o1 o2 o3 p1 p2 p3 ev1 ev2 ev3 Hj E1 E2 E3 Hsep ltac:(lra) C1 C2) as H.
      replace (10 ^ 11) with 100000000000 in * by (simpl; ring). unfold side in H. lra.
    - intros C1%ham_below C2%ham_below C3%spam_above.
      replace (10 ^ 12) with 1000000000000 in * by (simpl; ring).
      pose proof (score_join it Hit h Hb false (8 / 10 - 1 / 1000000000000) s1 s2 s o1 o2 o3 p1 p2 p3 ev1 ev2 ev3 Hj E1 E2 E3 Hsep ltac:(lra)
        ltac:(unfold side; lra) ltac:(unfold side; lra)) as H.
      replace (10 ^ 11) with 100000000000 in * by (simpl; ring). unfold side in H. lra.
  Qed.
End classes.

(** ** Two messages that share their clues *)
Definition jx : pyword := WStr (str "x"). Definition jy : pyword := WStr (str "y"). Definition jz : pyword := WStr (str "z").
Definition jh : pyword := WStr (str "h"). Definition jk : pyword := WStr (str "k").
Definition join_ms : list message := replicate 10 ([jx; jy; jz], true) ++ [([jh; jk], false)].

Definition ps : R := 10225 / 10450. (* a word of the ten spam messages *)
Definition ph : R := 225 / 1450. (* a word of the ham message *)

Lemma join_formula : formula join_ms jx = ps /\ formula join_ms jy = ps /\ formula join_ms jz = ps /\
  formula join_ms jh = ph /\ formula join_ms jk = ph.
Proof.
  assert (forall w, containing true w join_ms = 10%Z -> containing false w join_ms = 0%Z -> formula join_ms w = ps) as H1.
  { intros w E1 E2. unfold formula. rewrite E1, E2, bool_decide_eq_false_2 by done.
    replace (total true join_ms) with 10%Z by by vm_compute. replace (total false join_ms) with 1%Z by by vm_compute.
    rewrite (proj1 (one_label_robinson 10 10 1 ltac:(lia))). unfold ps. lra. }
  assert (forall w, containing true w join_ms = 0%Z -> containing false w join_ms = 1%Z -> formula join_ms w = ph) as H2.
  { intros w E1 E2. unfold formula. rewrite E1, E2, bool_decide_eq_false_2 by done.
    replace (total true join_ms) with 10%Z by by vm_compute. replace (total false join_ms) with 1%Z by by vm_compute.
    rewrite (proj2 (one_label_robinson 1 1 10 ltac:(lia))). unfold ph. lra. }
  split_and!; [apply H1|apply H1|apply H1|apply H2|apply H2]; by vm_compute.
Qed.

(** ** Evaluating Fisher's method *)
Definition rprod (l : list R) : R := foldr Rmult 1 l.
Lemma rprod_ln l : Forall (fun p => 0 < p) l -> 0 < rprod l /\ ln (rprod l) = rsum (ln <$> l).
Proof.
  induction 1 as [|p l Hp _ [IH1 IH2]]; cbn; [rewrite ln_1; lra|]. fold (rprod l). split; [by apply Rmult_lt_0_compat|].
  by rewrite ln_mult, IH2.
Qed.
Lemma fisher_prod l : Forall (fun p => 0 < p) l -> fisher l = 1 - rprod l * exp_terms (length l) (- ln (rprod l)).
Proof.
  intros H. destruct (rprod_ln l H) as [H1 H2]. unfold fisher, chi_tail. by rewrite <- H2, Ropp_involutive, exp_ln.
Qed.
Lemma exp_terms_mono n x y : 0 <= x <= y -> exp_terms n x <= exp_terms n y.
Proof.
  intros H. induction n as [|n IH]; [cbn; lra|]. cbn [exp_terms]. apply Rplus_le_compat; [done|].
  apply Rmult_le_compat_r; [left; apply Rinv_0_lt_compat, INR_fact_lt_0|]. by apply pow_incr.
Qed.
Lemma ln_upper (P a : R) : 0 < P -> exp (- a) <= P -> - ln P <= a.
Proof.
  intros HP H. rewrite <- (Ropp_involutive a), <- (ln_exp (- a)). apply Ropp_le_contravar.
  destruct H as [H| ->]; [left; apply ln_increasing; [apply exp_pos|done]|right; done].
Qed.
Lemma ln_lower (P a : R) : 0 < P -> P <= exp (- a) -> a <= - ln P.
Proof.
  intros HP H. rewrite <- (Ropp_involutive a), <- (ln_exp (- a)). apply Ropp_le_contravar.
  destruct H as [H| ->]; [left; apply ln_increasing; done|right; done].
Qed.
Lemma exp_scale n x : exp (INR n * x) = exp x ^ n.
Proof.
  induction n as [|n IH]; [cbn; by rewrite Rmult_0_l, exp_0|]. rewrite S_INR. cbn [Rpow_def.pow].
  replace ((INR n + 1) * x) with (x + INR n * x) by ring. by rewrite exp_plus, IH.
Qed.
Lemma exp_recip (a c : R) : 0 < c -> / c <= exp a -> exp (- a) <= c.
Proof.
  intros Hc H. rewrite exp_Ropp. rewrite <- (Rinv_inv c). apply Rinv_le_contravar; [by apply Rinv_0_lt_compat|done].
Qed.

Lemma one_of_two_high : 905 / 1000 < combined_score [ps; ps; ps; ph].
Proof.
  unfold combined_score, indicator_S, indicator_H. rewrite !fisher_prod by (repeat constructor; unfold ps, ph; lra).
  cbn [length fmap list_fmap rprod foldr].
  set (P := ps * (ps * (ps * (ph * 1)))). set (Q := (1 - ps) * ((1 - ps) * ((1 - ps) * ((1 - ph) * 1)))).
  assert (1453 / 10000 < P < 1454 / 10000) as HP by (unfold P, ps, ph; lra).
  assert (84 / 10000000 < Q < 85 / 10000000) as HQ by (unfold Q, ps, ph; lra).
  assert (185 / 100 <= - ln P) as L1.
  { apply ln_lower; [lra|]. replace (- (185 / 100)) with (INR 32 * - (37 / 640)) by (simpl; lra). rewrite exp_scale.
    apply Rle_trans with ((1 + - (37 / 640)) ^ 32); [cbn; lra|]. apply pow_incr. split; [lra|]. left. apply exp_ineq1. lra. }
  assert (- ln Q <= 12) as L2.
  { apply ln_upper; [lra|]. apply exp_recip; [lra|]. replace 12 with (INR 12 * 1) by (simpl; lra). rewrite exp_scale.
    apply Rle_trans with ((27 / 10) ^ 12).
    - apply Rle_trans with (10000000 / 84); [replace (10000000 / 84) with (/ (84 / 10000000)) by field; apply Rinv_le_contravar; lra|]. cbn. lra.
    - apply pow_incr. split; [lra|]. eapply Rle_trans; [|apply (exp_terms_le_exp 4); lra]. cbn. lra. }
  assert (0 <= - ln Q) as L3. { rewrite <- Ropp_0, <- ln_1. apply Ropp_le_contravar. left. apply ln_increasing; lra. }
  pose proof (exp_terms_mono 4 (185 / 100) (- ln P) ltac:(lra)) as T1. pose proof (exp_terms_mono 4 _ _ (conj L3 L2)) as T2.
  assert (561 / 100 <= exp_terms 4 (185 / 100)) as V1 by (cbn; lra). assert (exp_terms 4 12 <= 373) as V2 by (cbn; lra).
  set (E1 := exp_terms 4 (- ln P)) in *. set (E2 := exp_terms 4 (- ln Q)) in *.
  assert (1453 / 10000 * (561 / 100) <= P * E1) by (apply Rmult_le_compat; lra).
  assert (Q * E2 <= 85 / 10000000 * 373).
  { apply Rle_trans with (Q * 373); [apply Rmult_le_compat_l; lra|]. apply Rmult_le_compat_r; lra. }
  lra.
Qed.

Lemma both_low : combined_score [ps; ps; ps; ph; ph] < 86 / 100.
Proof.
  unfold combined_score, indicator_S, indicator_H. rewrite !fisher_prod by (repeat constructor; unfold ps, ph; lra).
  cbn [length fmap list_fmap rprod foldr].
  set (P := ps * (ps * (ps * (ph * (ph * 1))))). set (Q := (1 - ps) * ((1 - ps) * ((1 - ps) * ((1 - ph) * ((1 - ph) * 1))))).
  assert (225 / 10000 < P < 226 / 10000) as HP by (unfold P, ps, ph; lra).
  assert (0 < Q < 1) as HQ by (unfold Q, ps, ph; lra).
  assert (- ln P <= 385 / 100) as L1.
  { apply ln_upper; [lra|]. apply exp_recip; [lra|]. replace (385 / 100) with (INR 4 * (385 / 400)) by (simpl; lra). rewrite exp_scale.
    apply Rle_trans with ((26 / 10) ^ 4).
    - apply Rle_trans with (10000 / 225); [replace (10000 / 225) with (/ (225 / 10000)) by field; apply Rinv_le_contravar; lra|]. cbn. lra.
    - apply pow_incr. split; [lra|]. eapply Rle_trans; [|apply (exp_terms_le_exp 4); lra]. cbn. lra. }
  assert (0 <= - ln P) as L0. { rewrite <- Ropp_0, <- ln_1. apply Ropp_le_contravar. left. apply ln_increasing; lra. }
  assert (0 <= - ln Q) as L3. { rewrite <- Ropp_0, <- ln_1. apply Ropp_le_contravar. left. apply ln_increasing; lra. }
  pose proof (exp_terms_mono 5 _ _ (conj L0 L1)) as T1. pose proof (exp_terms_ge1 4 _ L3) as T2.
  assert (exp_terms 5 (385 / 100) <= 31) as V1 by (cbn; lra).
  set (E1 := exp_terms 5 (- ln P)) in *. set (E2 := exp_terms 5 (- ln Q)) in *.
  assert (P * E1 <= 226 / 10000 * 31).
  { apply Rle_trans with (P * 31); [apply Rmult_le_compat_l; lra|]. apply Rmult_le_compat_r; lra. }
  assert (0 <= Q * E2) by (apply Rmult_le_pos; lra).
  lra.
Qed.

Lemma both_not_low : 49 / 100 <= combined_score [ps; ps; ps; ph; ph].
Proof.
  unfold combined_score, indicator_S, indicator_H. rewrite !fisher_prod by (repeat constructor; unfold ps, ph; lra).
  cbn [length fmap list_fmap rprod foldr].
  set (P := ps * (ps * (ps * (ph * (ph * 1))))). set (Q := (1 - ps) * ((1 - ps) * ((1 - ps) * ((1 - ph) * ((1 - ph) * 1))))).
  assert (0 < P < 1) as HP by (unfold P, ps, ph; lra).
  assert (71 / 10000000 < Q < 72 / 10000000) as HQ by (unfold Q, ps, ph; lra).
  assert (- ln Q <= 12) as L2.
  { apply ln_upper; [lra|]. apply exp_recip; [lra|]. replace 12 with (INR 12 * 1) by (simpl; lra). rewrite exp_scale.
    apply Rle_trans with ((27 / 10) ^ 12).
    - apply Rle_trans with (10000000 / 71); [replace (10000000 / 71) with (/ (71 / 10000000)) by field; apply Rinv_le_contravar; lra|]. cbn. lra.
    - apply pow_incr. split; [lra|]. eapply Rle_trans; [|apply (exp_terms_le_exp 4); lra]. cbn. lra. }
  assert (0 <= - ln P) as L0. { rewrite <- Ropp_0, <- ln_1. apply Ropp_le_contravar. left. apply ln_increasing; lra. }
  assert (0 <= - ln Q) as L3. { rewrite <- Ropp_0, <- ln_1. apply Ropp_le_contravar. left. apply ln_increasing; lra. }
  pose proof (exp_terms_mono 5 _ _ (conj L3 L2)) as T1. pose proof (exp_terms_ge1 4 _ L0) as T2.
  assert (exp_terms 5 12 <= 1237) as V1 by (cbn; lra).
  set (E1 := exp_terms 5 (- ln P)) in *. set (E2 := exp_terms 5 (- ln Q)) in *.
  assert (Q * E2 <= 72 / 10000000 * 1237).
  { apply Rle_trans with (Q * 1237); [apply Rmult_le_compat_l; lra|]. apply Rmult_le_compat_r; lra. }
  assert (0 <= P * E1) by (apply Rmult_le_pos; lra).
  lra.
Qed.

(** ** The scores of the program *)
Definition join_calls : list call := (fun m : message => CLearn (SList m.1) m.2) <$> reverse join_ms.
Lemma join_matched : matched false join_calls join_ms.
Proof. apply learned_matched. Qed.
Lemma join_none : Forall (fun m => WNone ∉ m.1) join_ms.
Proof. apply (bool_decide_unpack _). by vm_compute. Qed.
Definition shared : list pyword := [jx; jy; jz].
Definition five : list pyword := shared ++ [jh; jk].

Section program.
  Context {M : machine} (it : set_order) (Hit : set_order_ok it).
  Notation o := (fst (run mem_backend it join_calls (c_new false ∅ : dobj))).

  Lemma join_score ws : NoDup ws -> (forall w, w ∈ ws -> w ∈ five) ->
    exists o' (p : R) ev, spamprob_evidence mem_backend it (SList ws) o = (o', Ok (p, ev)) /\
      Rabs (p - combined_score (formula join_ms <$> ws)) <= 1 / 1000000.
  Proof.
    intros Nd Hws.
    assert (one_type false (elems (SList ws))) as Ht.
    { assert (Forall (fun w => wkind w = wkind (WStr [])) five) as H by (apply (bool_decide_unpack _); by vm_compute).
      rewrite Forall_forall in H. intros w1 w2 H1 H2. cbn [elems] in *. by rewrite (H w1), (H w2) by auto. }
    destruct (score_formula_double it Hit join_calls join_ms (SList ws) join_matched) as (used&o'&p&ev&E&_&Nu&_&Hp&Hin&Hout);
      [by vm_compute|exact join_none|exact Ht|].
    exists o', p, ev. split; [exact E|].
    assert (used ≡ₚ ws) as HP.
    { apply NoDup_Permutation; [done|done|]. intros w. split; [intros Hw; by apply (Hin w)|]. intros Hw.
      destruct (decide (w ∈ used)) as [?|Hn]; [done|exfalso].
      assert (1 / 5 <= Rabs (formula join_ms w - 1 / 2)) as Hf.
      { pose proof (Hws w Hw) as H5. destruct join_formula as (F1&F2&F3&F4&F5).
        assert (formula join_ms w = ps \/ formula join_ms w = ph) as [-> | ->].
        { unfold five, shared in H5. cbn [app] in H5. rewrite !elem_of_cons, elem_of_nil in H5.
          destruct H5 as [->|[->|[->|[->|[->|[]]]]]]; auto. }
        - rewrite Rabs_pos_eq; unfold ps; lra.
        - rewrite Rabs_left; unfold ph; lra. }
      destruct (Hout w Hw Hn) as [Hl|[Hl _]].
      - replace (10 ^ 14) with 100000000000000 in Hl by (simpl; ring). lra.
      - assert (used ⊆+ five) as Hs by (apply NoDup_submseteq; [done|]; intros v Hv; apply Hws; by apply (Hin v)).
        apply submseteq_length in Hs. rewrite Hl in Hs. cbn in Hs. lia. }
    destruct (indicators_perm _ _ (fmap_Permutation (formula join_ms) _ _ HP)) as (_&_&HC). rewrite <- HC.
    eapply Rle_trans; [exact Hp|]. change (length join_ms) with 11%nat.
    replace (10 ^ 12) with 1000000000000 by (simpl; ring). replace (INR 11) with 11 by (simpl; lra). lra.
  Qed.

  (** Two messages are classified as spam, the message of their words is not. *)
  Lemma join_unsure : exists s1 s2 s o1 o2 o3 (p1 p2 p3 : R) ev1 ev2 ev3, joins s1 s2 s /\
    spamprob_evidence mem_backend it s1 o = (o1, Ok (p1, ev1)) /\ spamprob_evidence mem_backend it s2 o = (o2, Ok (p2, ev2)) /\
    spamprob_evidence mem_backend it s o = (o3, Ok (p3, ev3)) /\
    classify D p1 = spam /\ classify D p2 = spam /\ classify D p3 = unsure.
  Proof.
    exists (SList (shared ++ [jh])), (SList (shared ++ [jk])), (SList five).
    assert (NoDup (shared ++ [jh]) /\ NoDup (shared ++ [jk]) /\ NoDup five) as (N1&N2&N3).
    { split_and!; apply (bool_decide_unpack _); by vm_compute. }
    assert (Forall (fun w => w ∈ five) (shared ++ [jh]) /\ Forall (fun w => w ∈ five) (shared ++ [jk])) as [I1 I2].
    { split; apply (bool_decide_unpack _); by vm_compute. }
    rewrite Forall_forall in I1, I2.
    destruct (join_score _ N1 I1) as (o1&p1&ev1&E1&P1). destruct (join_score _ N2 I2) as (o2&p2&ev2&E2&P2).
    destruct (join_score _ N3 ltac:(done)) as (o3&p3&ev3&E3&P3).
    destruct join_formula as (F1&F2&F3&F4&F5).
    unfold five, shared in P1, P2, P3. cbn [fmap list_fmap app] in P1, P2, P3. rewrite F1, F2, F3, F4 in P1, P3. rewrite F1, F2, F3, F5 in P2. rewrite F5 in P3.
    pose proof one_of_two_high as H1. pose proof both_low as H2.
    pose proof both_not_low as H3.
    apply Rabs_le_inv in P1, P2, P3.
    exists o1, o2, o3, p1, p2, p3, ev1, ev2, ev3. split_and!; [|exact E1|exact E2|exact E3|apply certainly_spam; lra|apply certainly_spam; lra|apply certainly_unsure; lra].
    intros w. cbn [elems]. unfold five, shared. cbn [app]. rewrite !elem_of_cons, elem_of_nil. tauto.
  Qed.
End program.

(** Two spam messages without a common word *)
Definition four : list pyword := [jx; jy; jz; jh].
Lemma join_case {M : machine} : exists s1 s2 s o1 o2 o3 (p1 p2 p3 : R) (ev1 ev2 ev3 : list (pyword * R)),
  let o := fst (run mem_backend remove_dups [CLearn (SList four) true] (c_new false ∅ : dobj)) in
  bounded [CLearn (SList four) true] /\ joins s1 s2 s /\
  spamprob_evidence mem_backend remove_dups s1 o = (o1, Ok (p1, ev1)) /\ spamprob_evidence mem_backend remove_dups s2 o = (o2, Ok (p2, ev2)) /\
  spamprob_evidence mem_backend remove_dups s o = (o3, Ok (p3, ev3)) /\ separate ev1 ev2 /\
  classify D p1 = spam /\ classify D p2 = spam.
Proof.
  exists (SList [jx; jy]), (SList [jz; jh]), (SList four).
  assert (matched false [CLearn (SList four) true] [(four, true)]) as Hm.
  { apply (matched_learn false [] [] (SList four) true four); [constructor|done]. }
  assert (Z.of_nat (length [CLearn (SList four) true]) < 2 ^ 48)%Z as Hb by done.
  assert (Forall (fun m => WNone ∉ m.1) [(four, true)]) as Hn by (apply (bool_decide_unpack _); by vm_compute).
  assert (Forall (fun w => wkind w = wkind (WStr [])) four) as Hk by (apply (bool_decide_unpack _); by vm_compute).
  assert (Forall (fun w => containing true w [(four, true)] = 1%Z /\ containing false w [(four, true)] = 0%Z) four) as Hc by (apply (bool_decide_unpack _); by vm_compute).
  assert (Forall (fun w => w ∈ four) [jx; jy] /\ Forall (fun w => w ∈ four) [jz; jh]) as [I1 I2] by (split; apply (bool_decide_unpack _); by vm_compute).
  rewrite Forall_forall in Hk, Hc, I1, I2.
  assert (forall ws w1 w2, (forall w, w ∈ ws -> w ∈ four) -> w1 ∈ ws -> w2 ∈ ws -> w1 <> w2 ->
    exists o' (p : R) (ev : list (pyword * R)), spamprob_evidence mem_backend remove_dups (SList ws) (fst (run mem_backend remove_dups [CLearn (SList four) true] (c_new false ∅ : dobj))) = (o', Ok (p, ev)) /\
      classify D p = spam /\ forall w, w ∈ clues ev -> w ∈ ws) as Hs.
  { intros ws w1 w2 Hws H1 H2 Hne.
    destruct (such_words remove_dups dups_ok _ _ Hm Hb Hn (SList ws)) with (b := true) (w1 := w1) (w2 := w2) as (o'&p&ev&E&_&Hcl); [|done..| |].
    { intros v1 v2 V1 V2. cbn [elems] in *. by rewrite (Hk v1), (Hk v2) by auto. }
    { intros w Hw. cbn [elems] in Hw. destruct (Hc w (Hws w Hw)). split; cbn [negb]; lia. }
    exists o', p, ev. split_and!; [exact E|exact Hcl|].
    destruct (clues_uni mnum_total remove_dups dups_ok _ _ _ _ _ E) as (a1&b1&u1&->&_&_&J1&_).
    intros w Hw. unfold clues in Hw. cbn [drop] in Hw. rewrite drop_0 in Hw. apply elem_of_list_fmap in Hw as ([w' q]&->&Hw). by apply (J1 w' q). }
  assert (jx <> jy /\ jz <> jh) as [D1 D2] by (split; apply (bool_decide_unpack _); by vm_compute).
  assert (forall ev : list (pyword * R), forall ws, length ws = 2%nat -> NoDup (clues ev) -> (forall w, w ∈ clues ev -> w ∈ ws) -> (length (clues ev) <= 2)%nat) as Hl.
  { intros ev ws Hl2 Nd H. rewrite <- Hl2. apply submseteq_length, NoDup_submseteq; [done|exact H]. }
  assert (forall s o' (p : R) (ev : list (pyword * R)), spamprob_evidence mem_backend remove_dups s (fst (run mem_backend remove_dups [CLearn (SList four) true] (c_new false ∅ : dobj))) = (o', Ok (p, ev)) -> NoDup (clues ev)) as Hnd.
  { intros s o' p ev E. destruct (clues_uni mnum_total remove_dups dups_ok _ _ _ _ _ E) as (a1&b1&u1&->&Nd&_). unfold clues. cbn [drop]. by rewrite drop_0. }
  destruct (Hs [jx; jy] jx jy I1) as (o1&p1&ev1&E1&C1&K1); [left|right; left|done|].
  destruct (Hs [jz; jh] jz jh I2) as (o2&p2&ev2&E2&C2&K2); [left|right; left|done|].
  destruct (Hs four jx jy) as (o3&p3&ev3&E3&_&_); [done|left|right; left|done|].
  exists o1, o2, o3, p1, p2, p3, ev1, ev2, ev3. cbv zeta. split_and!; [done| |exact E1|exact E2|exact E3| |exact C1|exact C2].
  - intros w. cbn [elems]. unfold four. rewrite !elem_of_cons, elem_of_nil. tauto.
  - split.
    + intros w H1%K1 H2%K2. assert (Forall (fun w => w ∉ [jz; jh]) [jx; jy]) as HF by (apply (bool_decide_unpack _); by vm_compute).
      rewrite Forall_forall in HF. by apply (HF w).
    + pose proof (Hl ev1 [jx; jy] eq_refl (Hnd _ _ _ _ E1) K1) as L1. pose proof (Hl ev2 [jz; jh] eq_refl (Hnd _ _ _ _ E2) K2) as L2. cbn [F mnum] in *. lia.
Qed.
