(** * The score as a formula of the learned messages (C120) *)
From Coq Require Import Reals Lra Lia String.
From Flocq Require Import Core.
From Verif Require Import Py NumModel ClassifierModel TrainSpec TrainProofs ScoreProofs ScoreSpec TileProofs RealModel RealSpec
  RealProofs ExactProofs ApiProofs FloatApiProofs ShelveApiProofs OnceCases SwaySpec SwayProofs.
Local Open Scope R_scope.

Lemma strong_exact (q : R) : strong (A:=exact) q = true <-> 1 / 10 <= Rabs (q - 1 / 2).
Proof.
  unfold strong, strength, nge. cbn [nabs nsub nQ nlt exact rnum]. rewrite negb_true_iff.
  destruct (rltb (Rabs (q - 1 / 2)) (1 / 10)) eqn:E; split; intros H; try done.
  - apply rltb_true in E. lra.
  - destruct (Rle_dec (1 / 10) (Rabs (q - 1 / 2))) as [|Hn]; [done|].
    assert (rltb (Rabs (q - 1 / 2)) (1 / 10) = true) as Hc; [apply rltb_true; lra|congruence].
Qed.

Lemma score_formula it : set_order_ok it -> forall h ms s, matched false h ms ->
  Forall (fun m => WNone ∉ m.1) ms -> one_type false (elems s) ->
  exists used o' ev, spamprob_evidence mem_backend it s
      (fst (run mem_backend it h (c_new false ∅ : obj exact (gmap pyword winfo)))) = (o', Ok (combined_score (formula ms <$> used), ev)) /\
    drop 2 ev = (fun w => (w, formula ms w)) <$> used /\
    NoDup used /\ (length used <= 150)%nat /\
    (forall w, w ∈ used -> w ∈ elems s /\ 1 / 10 <= Rabs (formula ms w - 1 / 2)) /\
    (forall w, w ∈ elems s -> w ∉ used -> Rabs (formula ms w - 1 / 2) < 1 / 10 \/
       length used = 150%nat /\ forall v, v ∈ used -> Rabs (formula ms w - 1 / 2) <= Rabs (formula ms v - 1 / 2)).
Proof.
  intros Hit h ms s Hm Hn Ht.
  destruct (score_returns false h ms it s Hit Hm Hn Ht) as (o'&p&ev&E).
  destruct (score_exact it Hit false h s p ev o' E) as (H&S'&rest&->&_&->&_).
  destruct (clues_uni Hex it Hit h s _ _ o' E) as (e1&e2&used&[= <- <- ->]&Hnd&Hl&Hin&Hout).
  assert (forall w, w ∈ used.*1 -> (w, formula ms w) ∈ used) as Hf.
  { intros w Hw. apply elem_of_list_fmap in Hw as ([w' q]&->&Hw). cbn [fst]. destruct (Hin _ _ Hw) as (_&Hq&_).
    rewrite (probability_exact it Hit false h ms w' Hm) in Hq. by injection Hq as ->. }
  assert (used = (fun w => (w, formula ms w)) <$> used.*1) as Eu.
  { rewrite <- list_fmap_compose. rewrite <- (list_fmap_id used) at 1. apply list_fmap_ext. intros i [w q] Hi. cbn.
    assert ((w, q) ∈ used) as Hw by (by eapply elem_of_list_lookup_2).
    destruct (Hin _ _ Hw) as (_&Hq&_). rewrite (probability_exact it Hit false h ms w Hm) in Hq. by injection Hq as ->. }
  exists (used.*1), o', ((WBytes (str "*H*"), H) :: (WBytes (str "*S*"), S') :: used).
  split_and!.
  - rewrite E. do 4 f_equal. rewrite Eu at 1. rewrite <- list_fmap_compose. done.
  - simpl. rewrite drop_0. exact Eu.
  - done.
  - by rewrite fmap_length.
  - intros w Hw. apply Hf in Hw. destruct (Hin _ _ Hw) as (H1&_&H2). split; [done|]. by apply strong_exact.
  - intros w Hw Hnot. destruct (Hout w (formula ms w) Hw Hnot) as [Hs|[Hlen Hall]].
    + by apply probability_exact.
    + left. destruct (Rlt_dec (Rabs (formula ms w - 1 / 2)) (1 / 10)) as [|Hnl]; [done|].
      assert (strong (A:=exact) (formula ms w) = true) as Hc by (apply strong_exact; lra). congruence.
    + right. rewrite fmap_length. split; [done|]. intros v Hv. specialize (Hall v (formula ms v) (Hf v Hv)).
      unfold nle in Hall. cbn [nlt exact rnum] in Hall. apply negb_true_iff in Hall. unfold strength in Hall. cbn [nabs nsub nQ exact rnum] in Hall.
      destruct (Rle_dec (Rabs (formula ms w - 1 / 2)) (Rabs (formula ms v - 1 / 2))) as [|Hnle]; [done|].
      rewrite (proj2 (rltb_true _ _)) in Hall; [done|lra].
Qed.

(** ** A further spam word can lower the score *)
Section push.
  Let a := WStr (str "a").
  Let b := WStr (str "b").
  Definition push_ms : list message := [([], false); ([b], false); ([a; b], true); ([a; b], true)].

  Lemma push_probs : formula push_ms a = 1 - 225 / 2450 /\ formula push_ms b = 2225 / 3450.
  Proof.
    assert (forall l w, containing l w push_ms = (if l then (if bool_decide (w = a \/ w = b) then 2 else 0) else (if bool_decide (w = b) then 1 else 0))%Z) as E.
    { intros l w. unfold push_ms. cbn [containing]. destruct l; cbn [eqb andb].
      - destruct (decide (w = a \/ w = b)) as [H|H].
        + rewrite !bool_decide_eq_true_2; [done|done|]. destruct H as [-> | ->]; [left|right; left].
        + rewrite !bool_decide_eq_false_2; [done|done|]. rewrite !elem_of_cons, elem_of_nil. tauto.
      - rewrite (bool_decide_ext (w ∈ [b]) (w = b)) by (by rewrite elem_of_list_singleton).
        rewrite (bool_decide_eq_false_2 (w ∈ [])) by apply not_elem_of_nil. destruct (bool_decide (w = b)); done. }
    unfold formula. rewrite !E. change (total true push_ms) with 2%Z. change (total false push_ms) with 2%Z.
    rewrite (bool_decide_eq_true_2 (a = a \/ a = b)) by (by left). rewrite (bool_decide_eq_true_2 (b = a \/ b = b)) by (by right).
    rewrite (bool_decide_eq_false_2 (a = b)) by done. rewrite (bool_decide_eq_true_2 (b = b)) by done.
    rewrite !bool_decide_eq_false_2 by done. split.
    - destruct (one_label_robinson 2 2 2) as [-> _]; [lia|]. field.
    - unfold robinson, spam_share, fraction, nonempty_total. change (2 =? 0)%Z with false. cbv iota zeta. change (1 + 2)%Z with 3%Z. field.
  Qed.

  Lemma push_used it : set_order_ok it -> forall h ws, matched false h push_ms -> NoDup ws -> (forall w, w ∈ ws -> w = a \/ w = b) ->
    exists o' ev, spamprob_evidence mem_backend it (SList ws)
      (fst (run mem_backend it h (c_new false ∅ : obj exact (gmap pyword winfo)))) = (o', Ok (combined_score (formula push_ms <$> ws), ev)).
  Proof.
    intros Hit h ws Hm Hnd Hws. destruct push_probs as [Pa Pb].
    destruct (score_formula it Hit h push_ms (SList ws) Hm) as (used&o'&ev&E&_&Hu&Hl&Hin&Hout).
    { apply (bool_decide_unpack _). by vm_compute. }
    { intros w1 w2 H1 H2. destruct (Hws w1 H1) as [-> | ->], (Hws w2 H2) as [-> | ->]; done. }
    exists o', ev. rewrite E. do 3 f_equal.
    assert (used ≡ₚ ws) as HP.
    { apply NoDup_Permutation; [done..|]. intros w. split; [intros Hw; by apply Hin|]. intros Hw.
      destruct (decide (w ∈ used)) as [|Hn]; [done|]. exfalso.
      assert (length used <= 2)%nat as Hl2.
      { change 2%nat with (length [a; b]). apply submseteq_length, NoDup_submseteq; [done|].
        intros v Hv. apply Hin in Hv as [Hv _]. rewrite !elem_of_cons. apply Hws in Hv. tauto. }
      destruct (Hout w Hw Hn) as [Hr|[Hr _]]; [|lia].
      apply Rabs_def2 in Hr. destruct (Hws w Hw) as [-> | ->]; lra. }
    apply indicators_perm. by rewrite HP.
  Qed.

  Lemma exp3 : exp (-3) >= 1 / 27.
  Proof.
    assert (exp 3 <= 27) as H.
    { replace 3 with (1 + (1 + 1)) at 1 by ring. rewrite !exp_plus. pose proof exp_le_3. pose proof (exp_pos 1). nra. }
    replace (-3) with (Ropp 3) by lra. rewrite exp_Ropp. pose proof (exp_pos 3). apply Rle_ge. unfold Rdiv. rewrite Rmult_1_l. by apply Rinv_le_contravar.
  Qed.

  Lemma exp06 : exp (- (3 / 5)) <= 58 / 100.
  Proof.
    assert (1749 / 1000 <= exp (3 / 5)) as H.
    { replace (3 / 5) with ((3 / 20 + 3 / 20) + (3 / 20 + 3 / 20)) by field. rewrite !exp_plus.
      pose proof (exp_ineq1_le (3 / 20)). set (e := exp (3 / 20)) in *. assert (13225 / 10000 <= e * e) by nra. set (e2 := e * e) in *. nra. }
    rewrite exp_Ropp. apply Rle_trans with (/ (1749 / 1000)); [apply Rinv_le_contravar; lra|]. lra.
  Qed.

  Lemma ln_le_le u v : 0 < u -> u <= v -> ln u <= ln v.
  Proof. intros Hu [H| ->]; [left; by apply ln_increasing|lra]. Qed.

  Lemma tail1 m : chi_tail 1 m = exp (- m).
  Proof. unfold chi_tail. cbn [exp_terms Rpow_def.pow fact INR]. field. Qed.

  Lemma tail2 m : chi_tail 2 m = exp (- m) * (1 + m).
  Proof. unfold chi_tail. cbn [exp_terms Rpow_def.pow fact INR Nat.mul Nat.add]. field. Qed.

  Lemma one_clue_score p : 0 < p < 1 -> combined_score [p] = p.
  Proof.
    intros Hp. unfold combined_score, indicator_S, indicator_H, fisher. cbn [fmap list_fmap length rsum].
    rewrite !tail1, !Ropp_involutive, !Rplus_0_r, !exp_ln by lra. field.
  Qed.

  Lemma two_clues_score p q : 0 < p < 1 -> 0 < q < 1 ->
    combined_score [p; q] = (p * q * (1 - ln (p * q)) - (1 - p) * (1 - q) * (1 - ln ((1 - p) * (1 - q))) + 1) / 2.
  Proof.
    intros Hp Hq. unfold combined_score, indicator_S, indicator_H, fisher. cbn [fmap list_fmap length rsum].
    rewrite !tail2, !Ropp_involutive, !Rplus_0_r, <- !ln_mult by lra. rewrite !exp_ln by nra. field.
  Qed.

  Lemma push_lowers : combined_score [1 - 225 / 2450; 2225 / 3450] < combined_score [1 - 225 / 2450].
  Proof.
    rewrite one_clue_score, two_clues_score by lra.
    set (y := (1 - 225 / 2450) * (2225 / 3450)). set (x := (1 - (1 - 225 / 2450)) * (1 - 2225 / 3450)).
    assert (ln x <= -3) as Lx.
    { rewrite <- (ln_exp (-3)). apply ln_le_le; [unfold x; lra|]. pose proof exp3. unfold x. lra. }
    assert (- (3 / 5) <= ln y) as Ly.
    { rewrite <- (ln_exp (- (3 / 5))). apply ln_le_le; [apply exp_pos|]. pose proof exp06. unfold y. lra. }
    assert (y * (1 - ln y) <= y * (8 / 5)) by (apply Rmult_le_compat_l; [unfold y; lra|lra]).
    assert (x * 4 <= x * (1 - ln x)) by (apply Rmult_le_compat_l; [unfold x; lra|lra]).
    unfold x, y in *. lra.
  Qed.

  Lemma spam_word_lowers : ~ forall it h ms s w p p' ev ev' o1 o2, set_order_ok it -> matched false h ms ->
    let o := fst (run mem_backend it h (c_new false ∅ : obj exact (gmap pyword winfo))) in
    spamprob_evidence mem_backend it (SList s) o = (o1, Ok (p, ev)) ->
    spamprob_evidence mem_backend it (SList (s ++ [w])) o = (o2, Ok (p', ev')) ->
    6 / 10 <= formula ms w -> p <= p'.
  Proof.
    intros H. destruct (learned_history push_ms) as [h Hm]. destruct push_probs as [Pa Pb].
    destruct (push_used remove_dups dups_ok h [a] Hm) as (o1&ev1&E1); [apply NoDup_singleton|intros w ->%elem_of_list_singleton; by left|].
    destruct (push_used remove_dups dups_ok h [a; b] Hm) as (o2&ev2&E2).
    { apply (bool_decide_unpack _). by vm_compute. }
    { intros w. rewrite !elem_of_cons, elem_of_nil. tauto. }
    specialize (H remove_dups h push_ms [a] b _ _ _ _ _ _ dups_ok Hm E1 E2). rewrite Pb in H.
    cbn [fmap list_fmap] in H. rewrite Pa, Pb in H. pose proof push_lowers. lra.
  Qed.
End push.
