(** * Learning a message again and again (C124) *)
From Coq Require Import Reals Lra Lia String.
From Flocq Require Import Core.
From Verif Require Import Py NumModel ClassifierModel TrainSpec TrainProofs ScoreProofs ScoreSpec RealModel RealSpec
  RealProofs ExactProofs ApiProofs FloatProofs FloatApiProofs ShelveApiProofs MessageModel OnceCases SwaySpec SwayProofs PushProofs FormulaProofs
  LeanSpec LeanProofs.
Local Open Scope R_scope.

(** ** Tails of the chi-squared distribution *)
Lemma exp_pow_le x k : 0 <= 1 + x -> (1 + x) ^ k <= exp (INR k * x).
Proof.
  intros Hx. assert (1 + x <= exp x) as H1.
  { destruct (Req_dec x 0) as [->|Hn]; [rewrite exp_0; lra|]. left. by apply exp_ineq1. }
  induction k as [|k IH]; [simpl; rewrite Rmult_0_l, exp_0; lra|].
  rewrite S_INR. replace ((INR k + 1) * x) with (x + INR k * x) by ring. rewrite exp_plus.
  change ((1 + x) ^ S k) with ((1 + x) * (1 + x) ^ k). apply Rmult_le_compat; [done| |done|done].
  by apply pow_le.
Qed.

(** The terms of the series increase up to the degree. *)
Lemma Tm_mono j t m : 0 <= t <= m -> 0 < m <= INR j -> Tm t j <= Tm m j.
Proof.
  intros Ht Hm. unfold Tm.
  assert (0 < / INR (fact j)) as Hf by (apply Rinv_0_lt_compat, lt_0_INR, lt_O_fact).
  unfold Rdiv. rewrite <- !Rmult_assoc. apply Rmult_le_compat_r; [lra|].
  assert ((t / m) ^ j <= exp (INR j * (t / m - 1))) as H1.
  { replace (t / m) with (1 + (t / m - 1)) at 1 by ring. apply exp_pow_le.
    replace (1 + (t / m - 1)) with (t / m) by ring. apply Rmult_le_pos; [lra|]. left. apply Rinv_0_lt_compat. lra. }
  assert (exp (INR j * (t / m - 1)) <= exp (t - m)) as H2.
  { assert (INR j * (t / m - 1) <= t - m) as H; [|destruct (Rle_lt_or_eq_dec _ _ H) as [L|L]; [left; by apply exp_increasing|rewrite L; lra]].
    replace (INR j * (t / m - 1)) with (- (INR j / m) * (m - t)) by (field; lra).
    assert (1 <= INR j / m) by (apply le_div; lra). nra. }
  assert (t ^ j = (t / m) ^ j * m ^ j) as E.
  { rewrite <- Rpow_mult_distr. f_equal. field. lra. }
  rewrite E. replace (exp (- t) * ((t / m) ^ j * m ^ j)) with ((exp (- t) * (t / m) ^ j) * m ^ j) by ring.
  apply Rmult_le_compat_r; [apply pow_le; lra|].
  apply Rle_trans with (exp (- t) * exp (t - m)).
  - apply Rmult_le_compat_l; [left; apply exp_pos|lra].
  - rewrite <- exp_plus. replace (- t + (t - m)) with (- m) by ring. lra.
Qed.

(** One more probability [c] apart in the logarithm, one degree more. *)
Lemma chi_step c j : 0 < c -> c * INR (S j) <= INR j ->
  chi_tail (S j) (INR j * c) <= chi_tail (S (S j)) (INR (S j) * c).
Proof.
  intros Hc Hj. rewrite chi_tail_S. rewrite S_INR in Hj |- *.
  pose proof (pos_INR j) as Hj0. set (m := (INR j + 1) * c).
  assert (INR j * c < m) as Hlt by (unfold m; lra).
  destruct (MVT_cor2 (chi_tail (S j)) (fun m => - (exp (- m) * (m ^ j / INR (fact j)))) (INR j * c) m Hlt) as (x&E&Hx).
  { intros x _. apply chi_tail_deriv. }
  fold (Tm x j) in E. assert (0 <= INR j * c) as H0 by (apply Rmult_le_pos; lra).
  assert (Tm x j <= Tm m j) as HT by (apply Tm_mono; unfold m in *; lra).
  rewrite Tm_S, S_INR.
  assert (m / (INR j + 1) = c) as -> by (unfold m; field; lra).
  assert (m - INR j * c = c) as Ed by (unfold m; ring). rewrite Ed in E. nra.
Qed.

Lemma ln_5_3 : 1 / 2 <= - ln (6 / 10) <= 2 / 3.
Proof.
  split.
  - assert (ln (6 / 10) <= - (1 / 2)) as H; [|lra]. rewrite <- (ln_exp (- (1 / 2))).
    assert (6 / 10 <= exp (- (1 / 2))) as He.
    { pose proof (exp_pow_le (- / 32) 16 ltac:(lra)) as H. replace (INR 16 * - / 32) with (- (1 / 2)) in H.
      - eapply Rle_trans; [|exact H]. simpl. lra.
      - rewrite INR_IZR_INZ. change (Z.of_nat 16) with 16%Z. lra. }
    destruct (Rle_lt_or_eq_dec _ _ He) as [L|L]; [left; apply ln_increasing; lra|rewrite <- L; lra].
  - pose proof (ln_minus_1 (10 / 6) ltac:(lra)) as H. replace (10 / 6) with (/ (6 / 10)) in H by field.
    rewrite ln_Rinv in H by lra. lra.
Qed.

Lemma sixths j : 9 / 10 <= chi_tail (S j) (INR j * - ln (6 / 10)).
Proof.
  pose proof ln_5_3 as Hc. set (c := - ln (6 / 10)) in *.
  assert (exp (- c) = 6 / 10) as Ee by (unfold c; rewrite Ropp_involutive; apply exp_ln; lra).
  destruct j as [|[|j]].
  - unfold chi_tail. simpl. rewrite Rmult_0_l, Ropp_0, exp_0. lra.
  - unfold chi_tail. cbn [exp_terms INR fact Rpow_def.pow Nat.mul Nat.add]. rewrite Rmult_1_l, Ee. lra.
  - induction j as [|j IH].
    + unfold chi_tail. replace (INR 2 * c) with (c + c) by (simpl; ring).
      replace (exp (- (c + c))) with (exp (- c) * exp (- c)) by (rewrite <- exp_plus; f_equal; ring). rewrite Ee.
      replace (exp_terms 3 (c + c)) with (1 + (c + c) + (c + c) * (c + c) / 2) by (simpl; field).
      nra.
    + eapply Rle_trans; [exact IH|]. apply chi_step; [lra|].
      rewrite !S_INR. pose proof (pos_INR j). nra.
Qed.

Lemma exp_terms_double k m : 0 <= m -> exp_terms k m <= 2 ^ k * exp_terms k (m / 2).
Proof.
  intros Hm. induction k as [|k IH]; [simpl; lra|]. cbn [exp_terms].
  assert (0 <= (m / 2) ^ k / INR (fact k)) as Ht by (apply exp_term_ge0; lra).
  assert (0 <= exp_terms k (m / 2)) as He.
  { pose proof (exp_terms_mono_k 0 k (m / 2) ltac:(lra) ltac:(lia)). simpl in *. lra. }
  assert (m ^ k / INR (fact k) = 2 ^ k * ((m / 2) ^ k / INR (fact k))) as ->.
  { replace (m ^ k) with (2 ^ k * (m / 2) ^ k); [unfold Rdiv; ring|]. rewrite <- Rpow_mult_distr. f_equal. field. }
  change (2 ^ S k) with (2 * 2 ^ k). assert (0 < 2 ^ k) by (apply pow_lt; lra).
  assert (0 <= 2 ^ k * exp_terms k (m / 2)) by (apply Rmult_le_pos; lra).
  assert (0 <= 2 ^ k * ((m / 2) ^ k / INR (fact k))) by (apply Rmult_le_pos; lra). nra.
Qed.

Lemma chi_tail_small k m : (k <= 150)%nat -> 500 <= m -> chi_tail k m <= 1 / 100.
Proof.
  intros Hk Hm. destruct k as [|k]; [unfold chi_tail; simpl; lra|].
  unfold chi_tail. pose proof (exp_terms_double (S k) m ltac:(lra)) as H1.
  assert (exp (- m) = exp (- (m / 2)) * exp (- (m / 2))) as Ee by (rewrite <- exp_plus; f_equal; lra).
  pose proof (chi_tail_range k (m / 2) ltac:(lra)) as [_ H2]. unfold chi_tail in H2.
  assert (2 ^ S k <= exp 120) as H3.
  { apply Rle_trans with (2 ^ 150); [apply Rle_pow; [lra|lia]|].
    pose proof (exp_pow_le (1 / 5) 600 ltac:(lra)) as H.
    replace (INR 600 * (1 / 5)) with 120 in H by (rewrite INR_IZR_INZ; change (Z.of_nat 600) with 600%Z; lra).
    eapply Rle_trans; [|exact H]. change 600%nat with (4 * 150)%nat. rewrite pow_mult.
    apply pow_incr. simpl. lra. }
  assert (0 < exp (- (m / 2))) as P1 by apply exp_pos. assert (0 < 2 ^ S k) as P2 by (apply pow_lt; lra).
  assert (exp (- m) * exp_terms (S k) m <= exp (- (m / 2)) * 2 ^ S k) as H4.
  { rewrite Ee. apply Rle_trans with (exp (- (m / 2)) * exp (- (m / 2)) * (2 ^ S k * exp_terms (S k) (m / 2))).
    - apply Rmult_le_compat_l; [|done]. apply Rmult_le_pos; lra.
    - replace (exp (- (m / 2)) * exp (- (m / 2)) * (2 ^ S k * exp_terms (S k) (m / 2))) with
        ((exp (- (m / 2)) * 2 ^ S k) * (exp (- (m / 2)) * exp_terms (S k) (m / 2))) by ring.
      rewrite <- (Rmult_1_r (exp (- (m / 2)) * 2 ^ S k)) at 2. apply Rmult_le_compat_l; [|done]. apply Rmult_le_pos; lra. }
  eapply Rle_trans; [exact H4|].
  apply Rle_trans with (exp (- (m / 2)) * exp 120); [apply Rmult_le_compat_l; lra|].
  rewrite <- exp_plus. apply Rle_trans with (exp (Ropp 130)).
  { destruct (Rle_lt_or_eq_dec (- (m / 2) + 120) (Ropp 130)) as [L|L]; [lra|left; by apply exp_increasing|rewrite L; lra]. }
  rewrite exp_Ropp. pose proof (exp_ineq1 130 ltac:(lra)).
  replace (1 / 100) with (/ 100) by lra. apply Rinv_le_contravar; lra.
Qed.

(** ** One certain clue among weak ones *)
Lemma rsum_replicate n x : rsum (ln <$> replicate n x) = INR n * ln x.
Proof.
  induction n as [|n IH]; [simpl; ring|]. rewrite S_INR. cbn [replicate]. rewrite fmap_cons. cbn [rsum]. rewrite IH. ring.
Qed.

Definition tiny : R := exp (Ropp 500).

Lemma tiny_small : 0 < tiny <= 1 / 501.
Proof.
  unfold tiny. split; [apply exp_pos|]. rewrite exp_Ropp. pose proof (exp_ineq1 500 ltac:(lra)).
  replace (1 / 501) with (/ 501) by lra. apply Rinv_le_contravar; lra.
Qed.

Lemma certain_among_weak j : (j < 150)%nat -> 93 / 100 <= combined_score (1 - tiny :: replicate j (6 / 10)).
Proof.
  intros Hj. pose proof tiny_small as Ht.
  unfold combined_score, indicator_S, indicator_H, fisher. rewrite !fmap_length.
  cbn [length]. rewrite replicate_length.
  assert (chi_tail (S j) (- rsum (ln <$> ((fun p => 1 - p) <$> 1 - tiny :: replicate j (6 / 10)))) <= 1 / 100) as HS.
  { apply chi_tail_small; [lia|]. rewrite fmap_cons, fmap_replicate, fmap_cons. cbn [rsum]. rewrite rsum_replicate.
    replace (1 - (1 - tiny)) with tiny by ring. unfold tiny. rewrite ln_exp.
    pose proof (ln_minus_1 (1 - 6 / 10) ltac:(lra)) as Hl. pose proof (pos_INR j).
    assert (INR j * ln (1 - 6 / 10) <= 0) by nra. lra. }
  assert (9 / 10 - 2 / 501 <= chi_tail (S j) (- rsum (ln <$> (1 - tiny :: replicate j (6 / 10))))) as HH.
  { rewrite fmap_cons. cbn [rsum]. rewrite rsum_replicate. pose proof (sixths j) as H6.
    pose proof (ln_close (1 - tiny) 1 (1 / 501) ltac:(lra) ltac:(lra)) as Hl. rewrite ln_1 in Hl.
    assert (Rabs (ln (1 - tiny) - 0) <= 2 * (1 / 501)) as Hl2 by (apply Hl; apply Rabs_le; lra).
    pose proof ln_5_3 as Hc. pose proof (pos_INR j) as Hj0.
    assert (0 <= INR j * - ln (6 / 10)) as Hp by (apply Rmult_le_pos; lra).
    pose proof (ln_minus_1 (1 - tiny) ltac:(lra)) as Hneg.
    pose proof (chi_tail_lipschitz j (- (ln (1 - tiny) + INR j * ln (6 / 10))) (INR j * - ln (6 / 10)) ltac:(lra) Hp) as HL.
    replace (- (ln (1 - tiny) + INR j * ln (6 / 10)) - INR j * - ln (6 / 10)) with (- (ln (1 - tiny) - 0)) in HL by ring.
    rewrite Rabs_Ropp in HL. apply Rabs_le_inv in HL. lra. }
  lra.
Qed.

Lemma persist_core ps : (length ps <= 150)%nat -> Forall (fun p => 6 / 10 <= p < 1) ps ->
  Exists (fun p => 1 - tiny <= p) ps -> 93 / 100 <= combined_score ps.
Proof.
  intros Hl Hp He. pose proof tiny_small as Ht.
  apply Exists_exists in He as (p0&Hin&Hp0). apply elem_of_Permutation in Hin as [l HP].
  destruct (indicators_perm _ _ HP) as (_&_&->). rewrite HP in Hp. apply Permutation_length in HP. cbn [length] in HP.
  apply Forall_cons in Hp as [H0 Hp].
  eapply Rle_trans; [apply (certain_among_weak (length l)); lia|]. apply combined_mono. constructor; [lra|].
  clear -Hp. induction Hp as [|x l Hx _ IH]; cbn [length replicate]; constructor; [lra|done].
Qed.

(** ** Probabilities after learning a message again and again *)
Definition again (k : nat) (s : stream) (b : bool) (ms : list message) : list message := replicate k (elems s, b) ++ ms.

Lemma again_matched k s b h ms : matched false h ms -> matched false (h ++ replicate k (CLearn s b)) (again k s b ms).
Proof.
  intros Hm. induction k as [|k IH]; [by rewrite app_nil_r|].
  replace (S k) with (k + 1)%nat at 1 by lia. rewrite replicate_add, app_assoc. cbn [replicate].
  unfold again in *. cbn [replicate app]. apply matched_learn; [done|]. intros w. by destruct s.
Qed.

Lemma again_containing k s b ms l w : w ∈ elems s ->
  containing l w (again k s b ms) = (containing l w ms + if eqb l b then Z.of_nat k else 0)%Z.
Proof.
  intros Hw. unfold again. induction k as [|k IH]; [destruct (eqb l b); simpl; lia|].
  cbn [replicate app containing]. rewrite IH, bool_decide_eq_true_2 by done. destruct (eqb l b); cbn [andb]; lia.
Qed.

Lemma again_total k s b ms l : total l (again k s b ms) = (total l ms + if eqb l b then Z.of_nat k else 0)%Z.
Proof.
  unfold again. induction k as [|k IH]; [destruct (eqb l b); simpl; lia|].
  cbn [replicate app total]. rewrite IH. destruct (eqb l b); lia.
Qed.

(** Robinson's formula when almost all messages of a label have the word *)
Lemma mostly_robinson sc ns hc nh : consistent sc ns hc nh -> (0 < sc)%Z -> (2 * ns <= 3 * sc)%Z -> 4 / 10 < robinson sc ns hc nh.
Proof.
  intros Hc Hsc Hm. pose proof (robinson_alt _ _ _ _ Hc) as Ha. pose proof (share_half _ _ _ _ Hc) as Hs.
  pose proof (consistent_n _ _ _ _ Hc) as Hn. pose proof (fraction_sum_pos _ _ _ _ Hc) as Hf.
  assert (fraction hc nh <= 1) as F1.
  { destruct Hc as (_&_&_&_&H5&_&H7). unfold fraction, nonempty_total. apply div_le.
    - apply IZR_lt. destruct (Z.eqb_spec nh 0); lia.
    - rewrite Rmult_1_l. apply IZR_le. done. }
  assert (0 <= fraction hc nh) as F0 by (destruct Hc as (_&?&_&_&?&_); by apply fraction_ge0).
  assert (2 / 3 <= fraction sc ns) as F2.
  { destruct Hc as (H1&H2&H3&H4&_&H6&_). unfold fraction, nonempty_total in *. destruct (Z.eqb_spec ns 0) as [->|Hz].
    - assert (1 <= IZR sc) by (apply IZR_le; lia). lra.
    - assert (1 <= IZR ns) by (apply IZR_le; lia). apply le_div; [lra|]. apply IZR_le in Hm. rewrite !mult_IZR in Hm. lra. }
  set (r := robinson _ _ _ _) in *. set (sh := spam_share _ _ _ _) in *. set (n := IZR (_ + _)) in *.
  set (x := fraction hc nh) in *. set (y := fraction sc ns) in *.
  assert (- (1 / 10) <= sh - 1 / 2) as Hsh by nra.
  assert (0 < n / (45 / 100 + n) < 1) as Hq.
  { split; [apply Rdiv_lt_0_compat; lra|]. apply (Rmult_lt_reg_r (45 / 100 + n)); [lra|]. unfold Rdiv. rewrite Rmult_assoc, Rinv_l by lra. lra. }
  nra.
Qed.

Lemma side_formula b ms w : (0 < containing b w ms)%Z ->
  consistent (containing b w ms) (total b ms) (containing (negb b) w ms) (total (negb b) ms) /\
  side b (formula ms w) = robinson (containing b w ms) (total b ms) (containing (negb b) w ms) (total (negb b) ms).
Proof.
  intros Hp. pose proof (containing_le (negb b) w ms) as C2.
  assert (containing true w ms + containing false w ms <> 0)%Z as Hz by (destruct b; cbn [negb] in *; lia).
  pose proof (containing_consistent w ms Hz) as Hc. unfold formula. rewrite bool_decide_eq_false_2 by done.
  destruct b; cbn [negb side]; [done|]. split; [by apply consistent_swap|]. by rewrite (robinson_swap _ _ _ _ Hc).
Qed.

Lemma again_side k s b ms w : w ∈ elems s -> (0 < k)%nat -> (2 * total b ms <= Z.of_nat k)%Z ->
  4 / 10 < side b (formula (again k s b ms) w).
Proof.
  intros Hw Hk Ht. pose proof (containing_le b w ms) as Hc.
  assert (containing b w (again k s b ms) = containing b w ms + Z.of_nat k)%Z as E1 by (by rewrite again_containing, eqb_reflx).
  assert (total b (again k s b ms) = total b ms + Z.of_nat k)%Z as E2 by (by rewrite again_total, eqb_reflx).
  destruct (side_formula b (again k s b ms) w) as [Hco ->]; [lia|]. apply mostly_robinson; [done|lia|lia].
Qed.

Lemma again_certain k s b ms w : w ∈ elems s -> containing (negb b) w ms = 0%Z -> / tiny <= INR k ->
  1 - tiny <= side b (formula (again k s b ms) w).
Proof.
  intros Hw Hz Hk. pose proof tiny_small as Ht. pose proof (containing_le b w ms) as Hc.
  assert (1 < / tiny) as Hti by (rewrite <- Rinv_1 at 1; apply Rinv_lt_contravar; lra).
  assert (0 < k)%nat as Hk0 by (apply INR_lt; simpl; lra).
  assert (containing b w (again k s b ms) = containing b w ms + Z.of_nat k)%Z as E1 by (by rewrite again_containing, eqb_reflx).
  assert (total b (again k s b ms) = total b ms + Z.of_nat k)%Z as E2 by (by rewrite again_total, eqb_reflx).
  assert (containing (negb b) w (again k s b ms) = 0)%Z as E3.
  { rewrite again_containing, Hz by done. by destruct b. }
  destruct (side_formula b (again k s b ms) w) as [_ ->]; [lia|]. rewrite E1, E2, E3.
  destruct (one_label_robinson (containing b w ms + Z.of_nat k) (total b ms + Z.of_nat k) (total (negb b) (again k s b ms))) as [-> _]; [lia|].
  assert (INR k <= IZR (containing b w ms + Z.of_nat k)) as Hle by (rewrite INR_IZR_INZ; apply IZR_le; lia).
  set (n := IZR (containing b w ms + Z.of_nat k)) in *. assert (225 / 1000 / (45 / 100 + n) <= tiny); [|lra].
  apply div_le; [lra|].
  assert (1 <= tiny * n); [|nra].
  apply Rle_trans with (tiny * / tiny); [rewrite Rinv_r; lra|]. apply Rmult_le_compat_l; lra.
Qed.

Lemma exact_spam (p : R) : 93 / 100 <= p -> classify exact p = spam.
Proof.
  intros H. unfold classify, ham_cutoff, spam_cutoff. cbn [nlt nQ exact rnum].
  destruct (rltb p _) eqn:E1; [apply rltb_true in E1; lra|].
  destruct (rltb _ p) eqn:E2; [done|]. apply rltb_false in E2. lra.
Qed.

Lemma exact_ham (p : R) : p <= 7 / 100 -> classify exact p = ham.
Proof.
  intros H. unfold classify, ham_cutoff. cbn [nlt nQ exact rnum].
  destruct (rltb p _) eqn:E1; [done|apply rltb_false in E1; lra].
Qed.

(** ** The message is recognised in the end *)
Lemma persist it : set_order_ok it -> forall h ms s (b : bool) w, matched false h ms ->
  Forall (fun m => WNone ∉ m.1) ms -> one_type false (elems s) -> WNone ∉ elems s ->
  w ∈ elems s -> containing (negb b) w ms = 0%Z ->
  exists K, forall k, (K <= k)%nat -> exists o' p ev,
    spamprob_evidence mem_backend it s
      (fst (run mem_backend it (h ++ replicate k (CLearn s b)) (c_new false ∅ : obj exact (gmap pyword winfo)))) = (o', Ok (p, ev)) /\
    9 / 10 < (if b then p else 1 - p) /\ classify exact p = (if b then spam else ham).
Proof.
  intros Hit h ms s b w Hm Hn Hty Hns Hw Hz. pose proof tiny_small as Ht.
  destruct (archimed (/ tiny)) as [Hup _].
  assert (0 < / tiny) as Hti by (apply Rinv_0_lt_compat; lra).
  assert (0 < up (/ tiny))%Z as Hup0 by (apply lt_IZR; lra).
  exists (Nat.max 1 (Nat.max (Z.to_nat (2 * total b ms)) (Z.to_nat (up (/ tiny))))). intros k Hk.
  assert (2 * total b ms <= Z.of_nat k)%Z as K1 by lia.
  assert (/ tiny <= INR k) as K2.
  { apply Rle_trans with (IZR (up (/ tiny))); [lra|]. rewrite INR_IZR_INZ. apply IZR_le. lia. }
  assert (0 < k)%nat as K0 by lia.
  set (ms' := again k s b ms).
  assert (Forall (fun m => WNone ∉ m.1) ms') as Hn'.
  { unfold ms', again. apply Forall_app. split; [by apply Forall_replicate|done]. }
  destruct (score_formula it Hit (h ++ replicate k (CLearn s b)) ms' s (again_matched k s b h ms Hm) Hn' Hty)
    as (used&o'&ev&E&_&_&Hl&Hin&Hout).
  exists o', (combined_score (formula ms' <$> used)), ev. split; [exact E|].
  assert (forall v, v ∈ elems s -> 0 < side b (formula ms' v) < 1) as Hr.
  { intros v _. pose proof (formula_range ms' v). destruct b; cbn [side]; lra. }
  assert (forall v, Rabs (formula ms' v - 1 / 2) = Rabs (side b (formula ms' v) - 1 / 2)) as Hside.
  { intros v. destruct b; cbn [side]; [done|]. rewrite <- (Rabs_Ropp (formula ms' v - 1 / 2)). f_equal. field. }
  assert (93 / 100 <= combined_score ((fun v => side b (formula ms' v)) <$> used)) as Hc.
  { apply persist_core; [by rewrite fmap_length|..].
    - apply Forall_fmap, Forall_forall. intros v Hv. cbn. destruct (Hin v Hv) as [Hv1 Hv2].
      pose proof (again_side k s b ms v Hv1 K0 K1) as H4. fold ms' in H4. pose proof (Hr v Hv1). rewrite Hside in Hv2.
      destruct (Rle_dec (1 / 2) (side b (formula ms' v))) as [H5|H5].
      + rewrite Rabs_pos_eq in Hv2 by lra. lra.
      + rewrite Rabs_left in Hv2 by lra. lra.
    - pose proof (again_certain k s b ms w Hw Hz K2) as Hcw. fold ms' in Hcw.
      apply Exists_exists. destruct (decide (w ∈ used)) as [Hu|Hu].
      + exists (side b (formula ms' w)). split; [|done]. apply elem_of_list_fmap. by exists w.
      + destruct (Hout w Hw Hu) as [Hlt|[H150 Hall]].
        * rewrite Hside in Hlt. apply Rabs_def2 in Hlt. lra.
        * destruct used as [|v used]; [done|]. assert (v ∈ v :: used) as Hv by left.
          exists (side b (formula ms' v)). split; [apply elem_of_list_fmap; by exists v|].
          specialize (Hall v Hv). rewrite !Hside in Hall. destruct (Hin v Hv) as [Hv1 _].
          pose proof (again_side k s b ms v Hv1 K0 K1) as H4. fold ms' in H4.
          rewrite (Rabs_pos_eq (side b (formula ms' w) - 1 / 2)) in Hall by lra.
          destruct (Rle_dec (1 / 2) (side b (formula ms' v))) as [H5|H5].
          -- rewrite Rabs_pos_eq in Hall by lra. lra.
          -- rewrite Rabs_left in Hall by lra. lra. }
  destruct b.
  - cbn [side] in Hc. change ((fun v => formula ms' v) <$> used) with (formula ms' <$> used) in Hc.
    split; [lra|]. by apply exact_spam.
  - assert (combined_score ((fun v => side false (formula ms' v)) <$> used) = 1 - combined_score (formula ms' <$> used)) as Em.
    { destruct (indicators_mirror (formula ms' <$> used)) as (_&_&Em). rewrite <- Em, <- list_fmap_compose. done. }
    rewrite Em in Hc. split; [lra|]. apply exact_ham. lra.
Qed.

(** ** Or never *)
Lemma never_spam {M : machine} it : set_order_ok it -> forall h ms, matched false h ms -> forall s (b : bool) k,
  (Z.of_nat (length ms + k) < 2 ^ 48)%Z ->
  Forall (fun m => WNone ∉ m.1) ms -> one_type false (elems s) -> WNone ∉ elems s -> (0 < total (negb b) ms)%Z ->
  (forall w, w ∈ elems s -> containing (negb b) w ms = total (negb b) ms) ->
  exists o' p ev, spamprob_evidence mem_backend it s
      (fst (run mem_backend it (h ++ replicate k (CLearn s b)) (c_new false ∅ : dobj))) = (o', Ok (p, ev)) /\
    (if b then p <= 1 / 2 + 4 / 10 ^ 12 else 1 / 2 <= p + 4 / 10 ^ 12) /\
    classify D p <> (if b then spam else ham).
Proof.
  intros Hit h ms Hm s b k Hb Hn Hty Hns Hpos Hall.
  pose proof (again_matched k s b h ms Hm) as Hm'. set (ms' := again k s b ms) in *.
  assert (Z.of_nat (length ms') < 2 ^ 48)%Z as Hb'.
  { assert (length ms' = (k + length ms)%nat) as -> by (unfold ms', again; by rewrite app_length, replicate_length).
    clear -Hb. rewrite Nat.add_comm. exact Hb. }
  assert (Forall (fun m => WNone ∉ m.1) ms') as Hn'.
  { unfold ms', again. apply Forall_app. split; [by apply Forall_replicate|done]. }
  destruct (score_returns_b64 it Hit false _ ms' Hm' Hb' s Hn' Hty) as (o'&p&ev&E).
  exists o', p, ev. split; [done|].
  destruct (lean_score it Hit false _ ms' Hm' Hb' Hn' s (negb b) p ev o' E) as (_&H1&H2).
  - intros w Hw. unfold leans. rewrite negb_involutive. cbn [candidate] in Hw. unfold ms'.
    rewrite !again_containing, !again_total, eqb_reflx by done. rewrite (Hall w Hw).
    assert (eqb (negb b) b = false) as -> by (by destruct b). pose proof (containing_le b w ms). rewrite !Z.add_0_r.
    rewrite (Z.max_r 1 (total (negb b) ms)) by lia. rewrite (Z.mul_comm (containing b w ms + _)).
    apply Z.mul_le_mono_nonneg_l; lia.
  - destruct b; cbn [negb] in *; done.
Qed.
