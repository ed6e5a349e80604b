(** * The score in double precision as a formula of the learned messages (C122) *)
From Coq Require Import Reals Lra Lia String.
From Flocq Require Import Core.
From Verif Require Import Py NumModel ClassifierModel TrainSpec TrainProofs ScoreProofs ScoreSpec ClueProofs TileProofs RealModel RealSpec
  RealProofs ExactProofs ApiProofs FloatProofs FloatApiProofs OnceCases SwaySpec SwayProofs.
Local Open Scope R_scope.

(** ** Logarithms of nearby numbers *)
Lemma div_le a b c : 0 < b -> a <= c * b -> a / b <= c.
Proof.
  intros Hb H. apply (Rmult_le_reg_r b); [done|]. unfold Rdiv. rewrite Rmult_assoc, Rinv_l by lra. lra.
Qed.

Lemma le_div a b c : 0 < b -> c * b <= a -> c <= a / b.
Proof.
  intros Hb H. apply (Rmult_le_reg_r b); [done|]. unfold Rdiv. rewrite Rmult_assoc, Rinv_l by lra. lra.
Qed.

Lemma ln_quotient a b : 0 < a -> 0 < b -> ln (a / b) = ln a - ln b.
Proof. intros Ha Hb. unfold Rdiv. rewrite ln_mult, ln_Rinv by (done || by apply Rinv_0_lt_compat). ring. Qed.

Lemma ln_minus_1 x : 0 < x -> ln x <= x - 1.
Proof.
  intros Hx. destruct (Req_dec x 1) as [->|Hne]; [rewrite ln_1; lra|].
  pose proof (exp_ineq1 (x - 1) ltac:(lra)) as He.
  apply Rlt_le. rewrite <- (ln_exp (x - 1)). apply ln_increasing; lra.
Qed.

Lemma ln_close a b e : 0 < b -> 0 <= e <= 1 / 2 -> Rabs (a - b) <= e * b -> Rabs (ln a - ln b) <= 2 * e.
Proof.
  intros Hb He Ha. apply Rabs_le_inv in Ha.
  assert (b / 2 <= a) as Hl by nra. assert (0 < a) as Ha0 by lra.
  assert (ln a - ln b <= e) as U1.
  { rewrite <- ln_quotient by lra. pose proof (ln_minus_1 (a / b) ltac:(apply Rdiv_lt_0_compat; lra)) as H.
    assert (a / b - 1 <= e); [|lra]. replace (a / b - 1) with ((a - b) / b) by (field; lra).
    apply div_le; lra. }
  assert (ln b - ln a <= 2 * e) as U2.
  { rewrite <- ln_quotient by lra. pose proof (ln_minus_1 (b / a) ltac:(apply Rdiv_lt_0_compat; lra)) as H.
    assert (b / a - 1 <= 2 * e); [|lra]. replace (b / a - 1) with ((b - a) / a) by (field; lra).
    apply div_le; [lra|]. nra. }
  apply Rabs_le. lra.
Qed.

Lemma rsum_close d (l1 l2 : list R) : Forall2 (fun a b => Rabs (ln a - ln b) <= d) l1 l2 ->
  Rabs (rsum (ln <$> l1) - rsum (ln <$> l2)) <= INR (length l1) * d.
Proof.
  induction 1 as [|a b l1 l2 Hab _ IH].
  - simpl. rewrite Rminus_eq_0, Rabs_R0. lra.
  - rewrite !fmap_cons. cbn [rsum length]. rewrite S_INR.
    replace (ln a + rsum (ln <$> l1) - (ln b + rsum (ln <$> l2))) with
      ((ln a - ln b) + (rsum (ln <$> l1) - rsum (ln <$> l2))) by ring.
    eapply Rle_trans; [apply Rabs_triang|]. lra.
Qed.

Lemma fisher_close d l1 l2 : Forall (fun p => 0 < p <= 1) l1 -> Forall (fun p => 0 < p <= 1) l2 ->
  Forall2 (fun a b => Rabs (ln a - ln b) <= d) l1 l2 -> Rabs (fisher l1 - fisher l2) <= INR (length l1) * d.
Proof.
  intros P1 P2 H. pose proof (rsum_close d l1 l2 H) as Hs. pose proof (Forall2_length _ _ _ H) as Hl.
  unfold fisher. rewrite <- Hl.
  replace (1 - chi_tail (length l1) (- rsum (ln <$> l1)) - (1 - chi_tail (length l1) (- rsum (ln <$> l2)))) with
    (- (chi_tail (length l1) (- rsum (ln <$> l1)) - chi_tail (length l1) (- rsum (ln <$> l2)))) by ring.
  rewrite Rabs_Ropp. destruct (length l1) as [|k] eqn:El.
  - unfold chi_tail. simpl. rewrite !Rmult_0_r, Rminus_eq_0, Rabs_R0. lra.
  - eapply Rle_trans; [apply chi_tail_lipschitz|].
    + pose proof (rsum_ln_le0 l1 P1). lra.
    + pose proof (rsum_ln_le0 l2 P2). lra.
    + replace (- rsum (ln <$> l1) - - rsum (ln <$> l2)) with (- (rsum (ln <$> l1) - rsum (ln <$> l2))) by ring.
      by rewrite Rabs_Ropp.
Qed.

(** The score of nearby probabilities *)
Lemma combined_close d1 d2 l1 l2 : (length l1 <= 150)%nat -> 0 <= d1 -> 0 <= d2 ->
  Forall (fun p => 0 < p < 1) l1 -> Forall (fun p => 0 < p < 1) l2 ->
  Forall2 (fun a b => Rabs (ln a - ln b) <= d1 /\ Rabs (ln (1 - a) - ln (1 - b)) <= d2) l1 l2 ->
  Rabs (combined_score l1 - combined_score l2) <= 75 * d1 + 75 * d2.
Proof.
  intros Hl H1 H2 P1 P2 H.
  assert (INR (length l1) <= 150) as HL.
  { replace 150 with (INR 150) by (rewrite INR_IZR_INZ; done). by apply le_INR. }
  assert (Rabs (indicator_H l1 - indicator_H l2) <= 150 * d1) as EH.
  { unfold indicator_H. eapply Rle_trans; [apply (fisher_close d1)|].
    - eapply Forall_impl; [exact P1|simpl; intros; lra].
    - eapply Forall_impl; [exact P2|simpl; intros; lra].
    - eapply Forall2_impl; [exact H|]. simpl. intros a b Hx. apply Hx.
    - by apply Rmult_le_compat_r. }
  assert (Rabs (indicator_S l1 - indicator_S l2) <= 150 * d2) as ES.
  { unfold indicator_S. eapply Rle_trans; [apply (fisher_close d2)|].
    - apply Forall_fmap. eapply Forall_impl; [exact P1|simpl; intros; lra].
    - apply Forall_fmap. eapply Forall_impl; [exact P2|simpl; intros; lra].
    - apply Forall2_fmap_2. eapply Forall2_impl; [exact H|]. simpl. intros a b Hx. apply Hx.
    - rewrite fmap_length. by apply Rmult_le_compat_r. }
  apply Rabs_le_inv in EH. apply Rabs_le_inv in ES. unfold combined_score. apply Rabs_le. lra.
Qed.

(** ** The formula stays away from one *)
Lemma formula_below_1 ms w : (0 < length ms)%nat -> 1 / (7 * INR (length ms)) <= 1 - formula ms w.
Proof.
  intros Hn. assert (1 <= INR (length ms)) as HN by (apply (le_INR 1); lia).
  unfold formula. case_bool_decide as Hz.
  { apply div_le; nra. }
  pose proof (containing_le true w ms) as C1. pose proof (containing_le false w ms) as C2.
  pose proof (totals_length ms) as Tl.
  pose proof (containing_consistent w ms Hz) as Hc.
  set (n := (containing false w ms + containing true w ms)%Z).
  assert (1 <= IZR n) as Hn1 by (apply IZR_le; lia).
  assert (IZR n <= INR (length ms)) as Hn2 by (rewrite INR_IZR_INZ; apply IZR_le; lia).
  pose proof (share_range _ _ _ _ Hc) as Hs.
  unfold robinson. cbv zeta. fold n. set (sh := spam_share _ _ _ _) in *.
  replace (1 - (45 / 100 * (1 / 2) + IZR n * sh) / (45 / 100 + IZR n)) with
    ((225 / 1000 + IZR n * (1 - sh)) / (45 / 100 + IZR n)) by (field; lra).
  apply div_le; [nra|].
  replace ((225 / 1000 + IZR n * (1 - sh)) / (45 / 100 + IZR n) * (7 * INR (length ms))) with
    ((225 / 1000 + IZR n * (1 - sh)) * (7 * INR (length ms)) / (45 / 100 + IZR n)) by (field; lra).
  apply le_div; [lra|].
  assert (0 <= IZR n * (1 - sh) * (7 * INR (length ms))) as H0 by (apply Rmult_le_pos; [apply Rmult_le_pos|]; lra).
  lra.
Qed.

(** ** Strengths *)
Lemma strength_double {M : machine} (q : R) : 0 <= q <= 1 ->
  Rabs (strength (A:=D) q - Rabs (q - 1 / 2)) <= 2 / 10 ^ 15.
Proof.
  intros Hq. unfold strength. cbn [nabs nsub nQ mnum].
  rewrite mhalf, (mb (q - 1 / 2) 1) by (first [apply Rabs_le; lra | simpl; lra]).
  assert (Rabs (b64 (q - 1 / 2) - (q - 1 / 2)) <= (1 + 1 / 1000) * u) as E by (apply err_le; [apply Rabs_le; lra|lra]).
  eapply Rle_trans; [apply Rabs_triang_inv2|]. eapply Rle_trans; [exact E|].
  rewrite u_val. replace (10 ^ 15) with 1000000000000000 by (simpl; ring). lra.
Qed.

Lemma tenth_double {M : machine} : Rabs (nQ D 1 10 - 1 / 10) <= 1 / 10 ^ 15.
Proof.
  cbn [nQ mnum]. rewrite (mb (1 / 10) 1) by (first [apply Rabs_le; lra | simpl; lra]).
  eapply Rle_trans; [apply (err_le (1 / 10) (1 / 10)); [rewrite Rabs_pos_eq; lra|lra]|].
  rewrite u_val. replace (10 ^ 15) with 1000000000000000 by (simpl; ring). lra.
Qed.

Lemma strong_double {M : machine} (q f : R) : 0 <= q <= 1 -> Rabs (q - f) <= 2 / 10 ^ 15 ->
  (strong (A:=D) q = true -> 1 / 10 - 1 / 10 ^ 14 <= Rabs (f - 1 / 2)) /\
  (strong (A:=D) q = false -> Rabs (f - 1 / 2) < 1 / 10 + 1 / 10 ^ 14).
Proof.
  intros Hq Hf. pose proof (strength_double q Hq) as Hs. pose proof tenth_double as Ht.
  assert (Rabs (Rabs (q - 1 / 2) - Rabs (f - 1 / 2)) <= 2 / 10 ^ 15) as Hr.
  { eapply Rle_trans; [apply Rabs_triang_inv2|]. by replace (q - 1 / 2 - (f - 1 / 2)) with (q - f) by ring. }
  replace (10 ^ 15) with 1000000000000000 in * by (simpl; ring).
  replace (10 ^ 14) with 100000000000000 in * by (simpl; ring).
  apply Rabs_le_inv in Hs. apply Rabs_le_inv in Ht. apply Rabs_le_inv in Hr.
  unfold strong, nge. cbn [nlt mnum]. split; intros H.
  - apply negb_true_iff in H. apply rltb_false in H. lra.
  - apply negb_false_iff in H. apply rltb_true in H. lra.
Qed.

(** ** The score *)
Lemma score_matched {M : machine} it : set_order_ok it -> forall bg h ms s p ev o', matched bg h ms -> bounded_set ms ->
  spamprob_evidence mem_backend it s (fst (run mem_backend it h (c_new bg ∅ : dobj))) = (o', Ok (p, ev)) ->
  Rabs (p - combined_score ((drop 2 ev).*2)) <= tol.
Proof.
  intros Hit bg h ms s p ev o' Hm Hb E.
  assert (mgood (fst (run mem_backend it h (c_new bg ∅ : dobj)))) as Hg by apply (reachable_good it Hit).
  destruct (score_evidence_inv it s _ o' p ev Hg E) as (cs&S'&H&Ec&Es&->).
  destruct (evidence_tail mnum_total cs S' H) as (rest&Er&HP&_). rewrite Er. cbn [drop]. rewrite drop_0.
  assert (c_prob <$> cs ≡ₚ rest.*2) as HP2.
  { rewrite HP. unfold ev_pairs. by rewrite <- list_fmap_compose. }
  assert (Forall (fun q => u <= q <= 1 - u) (c_prob <$> cs)) as Hps.
  { apply Forall_fmap, Forall_forall. intros c Hc.
    pose proof (pclues_elem mnum_total it _ _ _ _ _ _ _ Hit Ec Hc) as Hw.
    apply word_clue_Ok in Hw as (_&_&Hq'&_).
    destruct (matched_spam_probability it Hit bg h ms Hm Hb (c_word c)) as (q&Eq&Rq&_).
    change (spam_probability (fst (run mem_backend it h (c_new bg ∅ : dobj))) (c_word c) = Ok (c_prob c)) in Hq'.
    rewrite Eq in Hq'. injection Hq' as Hq'. simpl. rewrite <- Hq'. exact Rq. }
  destruct (score_probs_b64 _ Hps) as (p'&S1&H1&E1&_&Hi&_).
  { rewrite fmap_length. by eapply pclues_length. }
  rewrite E1 in Es. injection Es as -> _ _. destruct (indicators_perm _ _ HP2) as (_&_&Ep). by rewrite <- Ep.
Qed.

Lemma score_formula_double {M : machine} it : set_order_ok it -> forall h ms s, matched false h ms ->
  (Z.of_nat (length ms) < 2 ^ 44)%Z -> Forall (fun m => WNone ∉ m.1) ms -> one_type false (elems s) ->
  exists used o' p ev, spamprob_evidence mem_backend it s
      (fst (run mem_backend it h (c_new false ∅ : dobj))) = (o', Ok (p, ev)) /\
    (drop 2 ev).*1 = used /\ NoDup used /\ (length used <= 150)%nat /\
    Rabs (p - combined_score (formula ms <$> used)) <= (3 * INR (length ms) + 4) / 10 ^ 12 /\
    (forall w, w ∈ used -> w ∈ elems s /\ 1 / 10 - 1 / 10 ^ 14 <= Rabs (formula ms w - 1 / 2)) /\
    (forall w, w ∈ elems s -> w ∉ used -> Rabs (formula ms w - 1 / 2) < 1 / 10 + 1 / 10 ^ 14 \/
       length used = 150%nat /\ forall v, v ∈ used -> Rabs (formula ms w - 1 / 2) <= Rabs (formula ms v - 1 / 2) + 1 / 10 ^ 14).
Proof.
  intros Hit h ms s Hm HN Hn Ht.
  assert (bounded_set ms) as Hb by (unfold bounded_set; lia).
  destruct (score_returns_b64 it Hit false h ms Hm Hb s Hn Ht) as (o'&p&ev&E).
  pose proof (evidence_b64 it Hit false h ms Hm Hb s p ev o' E) as Hev.
  pose proof (score_matched it Hit false h ms s p ev o' Hm Hb E) as Hp.
  destruct (clues_uni mnum_total it Hit h s _ _ o' E) as (e1&e2&used&->&Hnd&Hl&Hin&Hout).
  cbn [drop] in *. rewrite drop_0 in *.
  assert (forall w, exists q, spam_probability (fst (run mem_backend it h (c_new false ∅ : dobj))) w = Ok q /\
    0 <= q <= 1 /\ Rabs (q - formula ms w) <= 2 / 10 ^ 15) as Hprob.
  { intros w. destruct (matched_spam_probability it Hit false h ms Hm Hb w) as (q&Eq&Rq&_).
    destruct (probability_double it Hit false h ms w Hm Hb) as (q'&Eq'&Hq'). rewrite Eq in Eq'. injection Eq' as <-.
    exists q. pose proof u_pos. split; [done|]. split; [lra|done]. }
  assert (forall w q, (w, q) ∈ used -> 0 < q < 1 /\ Rabs (q - formula ms w) <= 2 / 10 ^ 15 * formula ms w /\ (0 < length ms)%nat) as Hclue.
  { intros w q Hw. rewrite Forall_forall in Hev. destruct (Hev _ Hw) as (H1&H2&H3). cbn [fst snd] in *.
    split; [done|]. unfold formula. rewrite bool_decide_eq_false_2 by lia. split; [done|].
    destruct ms; [simpl in H1; lia|simpl; lia]. }
  exists (used.*1), o', p, (e1 :: e2 :: used). split; [done|].
  split. { simpl. by rewrite drop_0. }
  split; [done|]. split; [by rewrite fmap_length|]. split.
  { set (N := INR (length ms)).
    assert (0 <= N) as HN0 by apply pos_INR.
    assert (N <= 17592186044416) as HN1.
    { unfold N. rewrite INR_IZR_INZ. apply IZR_le. change (2 ^ 44)%Z with 17592186044416%Z in HN. lia. }
    replace (10 ^ 15) with 1000000000000000 in * by (simpl; ring).
    assert (Rabs (combined_score (used.*2) - combined_score (formula ms <$> used.*1)) <= 75 * (4 / 1000000000000000) + 75 * (28 * N / 1000000000000000)
      \/ used = []) as [Hc| ->].
    { destruct (decide (used = [])) as [?|Hne]; [by right|left].
      assert (1 <= N) as HN2.
      { destruct used as [|[w q] used]; [done|]. destruct (Hclue w q ltac:(left)) as (_&_&Hlm). apply (le_INR 1). lia. }
      apply combined_close.
      - by rewrite fmap_length.
      - lra.
      - lra.
      - apply Forall_fmap, Forall_forall. intros [w q] Hw. by apply (Hclue w q).
      - apply Forall_fmap, Forall_fmap, Forall_forall. intros [w q] Hw. cbn. apply formula_range.
      - apply Forall2_fmap_2, Forall2_fmap_r, Forall_Forall2_diag, Forall_forall. intros [w q] Hw. cbn.
        destruct (Hclue w q Hw) as (Q1&Q2&Q3). pose proof (formula_range ms w) as Fr.
        pose proof (formula_below_1 ms w Q3) as Fb. fold N in Fb. split.
        + replace (4 / 1000000000000000) with (2 * (2 / 1000000000000000)) by lra. apply ln_close; [lra|lra|done].
        + replace (28 * N / 1000000000000000) with (2 * (14 * N / 1000000000000000)) by lra. apply ln_close; [lra|lra|].
          replace (1 - q - (1 - formula ms w)) with (- (q - formula ms w)) by ring. rewrite Rabs_Ropp.
          eapply Rle_trans; [exact Q2|].
          assert (1 <= (1 - formula ms w) * (7 * N)) as Hm1.
          { apply (Rmult_le_compat_r (7 * N)) in Fb; [|lra]. unfold Rdiv in Fb.
            rewrite Rmult_assoc, Rinv_l in Fb by lra. lra. }
          lra. }
    - unfold tol in Hp. replace (10 ^ 12) with 1000000000000 in * by (simpl; ring).
      apply Rabs_le_inv in Hp. apply Rabs_le_inv in Hc.
      destruct (Rle_dec 1 N) as [H1|H1]; [apply Rabs_le; lra|].
      assert (length ms = 0%nat) as Hz.
      { destruct (length ms) eqn:El; [done|]. destruct H1. unfold N. apply (le_INR 1). lia. }
      assert (used = []) as ->.
      { destruct used as [|[w q] used]; [done|]. destruct (Hclue w q ltac:(left)) as (_&_&Hlm). lia. }
      simpl in *. apply Rabs_le. lra.
    - simpl in *. unfold tol in Hp. eapply Rle_trans; [exact Hp|].
      replace (10 ^ 12) with 1000000000000 by (simpl; ring). lra. }
  assert (forall w, w ∈ used.*1 -> exists q, (w, q) ∈ used) as Hf.
  { intros w Hw. apply elem_of_list_fmap in Hw as ([w' q]&->&Hw). by exists q. }
  split.
  - intros w Hw. destruct (Hf w Hw) as [q Hq]. destruct (Hin _ _ Hq) as (H1&H2&H3). split; [done|].
    destruct (Hprob w) as (q'&Eq&Rq&Nq). rewrite Eq in H2. injection H2 as ->. by apply (strong_double q).
  - intros w Hw Hnot. destruct (Hprob w) as (q&Eq&Rq&Nq).
    destruct (Hout w q Hw Hnot Eq) as [Hs|[Hlen Hall]].
    + left. by apply (strong_double q).
    + right. rewrite fmap_length. split; [done|]. intros v Hv. destruct (Hf v Hv) as [qv Hqv].
      specialize (Hall v qv Hqv). destruct (Hin _ _ Hqv) as (_&H2&_).
      destruct (Hprob v) as (q'&Eqv&Rqv&Nqv). rewrite Eqv in H2. injection H2 as ->.
      unfold nle in Hall. apply negb_true_iff in Hall. cbn [nlt mnum] in Hall. apply rltb_false in Hall.
      pose proof (strength_double q Rq) as S1. pose proof (strength_double qv Rqv) as S2.
      assert (forall a b, Rabs (Rabs (a - 1 / 2) - Rabs (b - 1 / 2)) <= Rabs (a - b)) as Hr.
      { intros a b. eapply Rle_trans; [apply Rabs_triang_inv2|]. right; f_equal; ring. }
      pose proof (Rle_trans _ _ _ (Hr q (formula ms w)) Nq) as R1.
      pose proof (Rle_trans _ _ _ (Hr qv (formula ms v)) Nqv) as R2.
      replace (10 ^ 15) with 1000000000000000 in * by (simpl; ring).
      replace (10 ^ 14) with 100000000000000 in * by (simpl; ring).
      apply Rabs_le_inv in S1. apply Rabs_le_inv in S2. apply Rabs_le_inv in R1. apply Rabs_le_inv in R2. lra.
Qed.
