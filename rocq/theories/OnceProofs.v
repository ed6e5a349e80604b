(** * What a single training does to a score: bounds on Fisher's combination *)
From Coq Require Import Reals Lra Lia.
From Verif Require Import Py NumModel ClassifierModel TrainSpec ScoreProofs ScoreSpec RealModel RealSpec
  RealProofs ExactProofs.
Local Open Scope R_scope.

(** ** Bounds on the chi-squared tail *)
Lemma exp_pow x k : exp (INR k * x) = exp x ^ k.
Proof.
  induction k as [|k IH].
  - simpl. by rewrite Rmult_0_l, exp_0.
  - rewrite S_INR, Rmult_plus_distr_r, Rmult_1_l, exp_plus, IH. simpl. ring.
Qed.

Lemma pow_succ_fact k : INR (S k) ^ k / INR (fact k) <= exp 1 ^ k.
Proof.
  induction k as [|k IH].
  - simpl. lra.
  - assert (0 < INR (S k)) as Hk by (apply lt_0_INR; lia).
    pose proof (Rinv_0_lt_compat _ Hk) as Hi.
    assert (INR (S (S k)) ^ S k / INR (fact (S k)) =
            (1 + / INR (S k)) ^ S k * (INR (S k) ^ k / INR (fact k))) as ->.
    { assert (INR (S (S k)) = (1 + / INR (S k)) * INR (S k)) as ->.
      { rewrite (S_INR (S k)). field. lra. }
      change (fact (S k)) with (S k * fact k)%nat. rewrite mult_INR.
      rewrite Rpow_mult_distr. change (INR (S k) ^ S k) with (INR (S k) * INR (S k) ^ k). field.
      repeat split; try apply INR_fact_neq_0; try lra. }
    change (exp 1 ^ S k) with (exp 1 * exp 1 ^ k). apply Rmult_le_compat; [apply pow_le; lra| | |done].
    + apply exp_term_ge0. lra.
    + apply Rle_trans with (exp (/ INR (S k)) ^ S k).
      * apply pow_incr. split; [lra|]. left. apply exp_ineq1. lra.
      * right. rewrite <- exp_pow. f_equal. field. lra.
Qed.

Lemma exp_terms_geometric k m : INR k < m ->
  exp_terms (S k) m <= m ^ k / INR (fact k) * (m / (m - INR k)).
Proof.
  induction k as [|k IH]; intros Hm.
  - simpl in *. right. field. lra.
  - assert (0 <= INR k) as Hk0 by apply pos_INR. rewrite S_INR in *.
    change (exp_terms (S (S k)) m) with (exp_terms (S k) m + m ^ S k / INR (fact (S k))).
    assert (INR k < m) as Hk by lra. specialize (IH Hk).
    assert (m ^ k / INR (fact k) = m ^ S k / INR (fact (S k)) * ((INR k + 1) / m)) as E.
    { change (fact (S k)) with (S k * fact k)%nat. rewrite mult_INR, S_INR. simpl. field.
      pose proof (INR_fact_neq_0 k). repeat split; lra. }
    rewrite E in IH. pose proof (exp_term_ge0 (S k) m ltac:(lra)) as HT.
    set (T := m ^ S k / INR (fact (S k))) in *.
    replace (T * (m / (m - (INR k + 1)))) with (T * ((INR k + 1) / (m - (INR k + 1))) + T) by (field; lra).
    apply Rplus_le_compat_r. eapply Rle_trans; [exact IH|].
    rewrite Rmult_assoc. apply Rmult_le_compat_l; [done|].
    replace ((INR k + 1) / m * (m / (m - INR k))) with ((INR k + 1) * / (m - INR k)) by (field; lra).
    apply Rmult_le_compat_l; [lra|]. apply Rinv_le_contravar; lra.
Qed.

(** The tail for k+1 clues of strength L > 1 each. *)
Lemma chi_tail_upper k L : 1 < L ->
  chi_tail (S k) (INR (S k) * L) <=
  exp (- L) ^ S k * (exp 1 ^ k * L ^ S k / (L - 1)).
Proof.
  intros HL. assert (0 < INR (S k)) as Hk by (apply lt_0_INR; lia). set (m := INR (S k) * L).
  assert (INR (S k) < m) as Hm by (unfold m; nra).
  assert (INR k < m) as Hm' by (rewrite S_INR in Hm; lra).
  unfold chi_tail. assert (exp (- m) = exp (- L) ^ S k) as ->.
  { rewrite <- exp_pow. f_equal. unfold m. ring. }
  apply Rmult_le_compat_l; [apply pow_le; left; apply exp_pos|].
  eapply Rle_trans; [by apply exp_terms_geometric|].
  unfold m at 1. rewrite Rpow_mult_distr.
  replace (INR (S k) ^ k * L ^ k / INR (fact k)) with (INR (S k) ^ k / INR (fact k) * L ^ k)
    by (field; apply INR_fact_neq_0).
  replace (exp 1 ^ k * L ^ S k / (L - 1)) with (exp 1 ^ k * L ^ k * (L / (L - 1))) by (simpl; field; lra).
  apply Rmult_le_compat.
  - apply Rmult_le_pos; [apply exp_term_ge0; lra|apply pow_le; lra].
  - apply Rmult_le_pos; [lra|]. left. apply Rinv_0_lt_compat. lra.
  - apply Rmult_le_compat_r; [apply pow_le; lra|]. apply pow_succ_fact.
  - apply Rmult_le_reg_r with ((m - INR k) * (L - 1)); [apply Rmult_lt_0_compat; lra|].
    replace (m / (m - INR k) * ((m - INR k) * (L - 1))) with (m * (L - 1)) by (field; lra).
    replace (L / (L - 1) * ((m - INR k) * (L - 1))) with (L * (m - INR k)) by (field; lra).
    unfold m. rewrite S_INR. pose proof (pos_INR k). nra.
Qed.

(** One minus the tail is at most the first term left out. *)
Lemma chi_tail_lower k m : 0 <= m -> 1 - chi_tail (S k) m <= m ^ S k / INR (fact (S k)).
Proof.
  intros H0. destruct (Rle_lt_or_eq_dec 0 m H0) as [Hm|<-].
  2: { rewrite chi_tail_0, pow_i by lia. unfold Rdiv. lra. }
  set (g := fun x => chi_tail (S k) x + / INR (fact (S k)) * x ^ S k).
  destruct (MVT_cor2 g (fun x => - (exp (- x) * (x ^ k / INR (fact k))) +
     / INR (fact (S k)) * (INR (S k) * x ^ k)) 0 m Hm) as (c&E&Hc).
  { intros c _. apply (derivable_pt_lim_plus (chi_tail (S k)) (fun x => / INR (fact (S k)) * x ^ S k)).
    - apply chi_tail_deriv.
    - apply derivable_pt_lim_scal. apply (derivable_pt_lim_pow c (S k)). }
  unfold g in E. rewrite chi_tail_0, pow_i in E by lia.
  assert (/ INR (fact (S k)) * (INR (S k) * c ^ k) = c ^ k / INR (fact k)) as Ef.
  { change (fact (S k)) with (S k * fact k)%nat. rewrite mult_INR. field. split.
    - apply INR_fact_neq_0.
    - by apply not_0_INR. }
  rewrite Ef in E. pose proof (exp_term_ge0 k c ltac:(lra)) as Hp.
  assert (exp (- c) <= 1) as He.
  { rewrite <- exp_0. left. apply exp_increasing. lra. }
  assert (0 <= (- (exp (- c) * (c ^ k / INR (fact k))) + c ^ k / INR (fact k)) * (m - 0)) as Hpos.
  { apply Rmult_le_pos; [|lra]. set (t := c ^ k / INR (fact k)) in *. nra. }
  unfold Rdiv. lra.
Qed.

(** ** Rational bounds on the exponential *)
Lemma exp_ge_terms k m : 0 <= m -> exp_terms (S k) m <= exp m.
Proof.
  intros H. destruct (chi_tail_range k m H) as [_ H1]. unfold chi_tail in H1. pose proof (exp_pos m).
  assert (exp m * exp (- m) = 1) as E by (rewrite <- exp_plus, <- exp_0; f_equal; lra).
  apply Rmult_le_compat_l with (r := exp m) in H1; [|lra]. rewrite <- Rmult_assoc, E in H1. lra.
Qed.

Lemma exp_le_terms k m : 0 <= m -> m ^ S k / INR (fact (S k)) < 1 ->
  exp m <= exp_terms (S k) m / (1 - m ^ S k / INR (fact (S k))).
Proof.
  intros H Hl. pose proof (chi_tail_lower k m H) as H1. unfold chi_tail in H1. pose proof (exp_pos m).
  set (t := m ^ S k / INR (fact (S k))) in *.
  assert (exp m * exp (- m) = 1) as E by (rewrite <- exp_plus, <- exp_0; f_equal; lra).
  apply Rmult_le_reg_r with (1 - t); [lra|].
  replace (exp_terms (S k) m / (1 - t) * (1 - t)) with (exp_terms (S k) m) by (field; lra).
  apply Rmult_le_compat_l with (r := exp m) in H1; [|lra].
  rewrite Rmult_minus_distr_l, <- Rmult_assoc, E in H1. lra.
Qed.

Lemma fact_0 : INR (fact 0) = 1. Proof. done. Qed.
Lemma fact_1 : INR (fact 1) = 1. Proof. done. Qed.
Lemma fact_2 : INR (fact 2) = 2. Proof. rewrite INR_IZR_INZ. by vm_compute (Z.of_nat _). Qed.
Lemma fact_3 : INR (fact 3) = 6. Proof. rewrite INR_IZR_INZ. by vm_compute (Z.of_nat _). Qed.
Lemma fact_4 : INR (fact 4) = 24. Proof. rewrite INR_IZR_INZ. by vm_compute (Z.of_nat _). Qed.
Lemma fact_5 : INR (fact 5) = 120. Proof. rewrite INR_IZR_INZ. by vm_compute (Z.of_nat _). Qed.
Lemma fact_6 : INR (fact 6) = 720. Proof. rewrite INR_IZR_INZ. by vm_compute (Z.of_nat _). Qed.
Lemma fact_7 : INR (fact 7) = 5040. Proof. rewrite INR_IZR_INZ. by vm_compute (Z.of_nat _). Qed.

Ltac terms_in H :=
  cbn [exp_terms] in H;
  rewrite ?fact_0, ?fact_1, ?fact_2, ?fact_3, ?fact_4, ?fact_5, ?fact_6, ?fact_7 in H;
  cbn [Rpow_def.pow] in H.

Lemma exp_1_upper : exp 1 <= 272 / 100.
Proof.
  pose proof (exp_le_terms 6 1 ltac:(lra)) as H. terms_in H. lra.
Qed.

Definition L0 : R := 186 / 100.

Lemma exp_L0 : 642 / 100 <= exp L0 <= 643 / 100.
Proof.
  assert (exp L0 = exp (93 / 100) * exp (93 / 100)) as ->.
  { rewrite <- exp_plus. f_equal. unfold L0. lra. }
  pose proof (exp_ge_terms 6 (93 / 100) ltac:(lra)) as H1.
  pose proof (exp_le_terms 6 (93 / 100) ltac:(lra)) as H2. terms_in H1. terms_in H2.
  assert (253 / 100 + 4 / 1000 <= exp (93 / 100)) by lra.
  assert (exp (93 / 100) <= 253 / 100 + 5 / 1000) by lra. nra.
Qed.

(** ** Clues that all point the same way *)
Definition q0 : R := 8448 / 10000.
Definition y0 : R := 17 / 100.

Lemma exp_minus_L0 : 1 - q0 <= exp (- L0) <= 100 / 642.
Proof.
  pose proof exp_L0 as [H1 H2]. rewrite exp_Ropp. split.
  - apply Rle_trans with (/ (643 / 100)); [unfold q0; lra|]. apply Rinv_le_contravar; lra.
  - apply Rle_trans with (/ (642 / 100)); [|lra]. apply Rinv_le_contravar; lra.
Qed.

Lemma exp_minus_y0 : exp (- y0) <= q0.
Proof.
  pose proof (exp_ge_terms 2 y0 ltac:(unfold y0; lra)) as H. terms_in H. unfold y0 in H at 1 2 3.
  rewrite exp_Ropp. apply Rle_trans with (/ (118445 / 100000)); [|unfold q0; lra].
  apply Rinv_le_contravar; lra.
Qed.

Definition high (p : R) : Prop := q0 <= p < 1.

Lemma high_S l : Forall high l -> INR (length l) * L0 <= - rsum (ln <$> ((fun p => 1 - p) <$> l)).
Proof.
  induction 1 as [|p l [H1 H2] _ IH]; [simpl; lra|].
  rewrite !fmap_cons. cbn [rsum length]. rewrite S_INR.
  assert (ln (1 - p) <= - L0); [|lra].
  rewrite <- (ln_exp (- L0)). pose proof exp_minus_L0 as [He _].
  destruct (Rle_lt_or_eq_dec (1 - p) (exp (- L0))) as [Hl| ->]; [lra| |lra].
  left. apply ln_increasing; lra.
Qed.

Lemma high_H l : Forall high l -> 0 <= - rsum (ln <$> l) <= INR (length l) * y0.
Proof.
  induction 1 as [|p l [H1 H2] _ IH]; [simpl; lra|].
  rewrite !fmap_cons. cbn [rsum length]. rewrite S_INR. unfold q0 in H1.
  assert (- y0 <= ln p < 0); [|lra]. split.
  - rewrite <- (ln_exp (- y0)). pose proof exp_minus_y0 as He. unfold q0 in He.
    pose proof (exp_pos (- y0)).
    destruct (Rle_lt_or_eq_dec (exp (- y0)) p) as [Hl|<-]; [lra| |lra].
    left. apply ln_increasing; lra.
  - rewrite <- ln_1. apply ln_increasing; lra.
Qed.

(** The bounds that remain to be evaluated. *)
Lemma combined_high k l : length l = S k -> Forall high l ->
  1 - (chi_tail (S k) (INR (S k) * L0) + (INR (S k) * y0) ^ S k / INR (fact (S k))) / 2 <= combined_score l.
Proof.
  intros Hl Hh. pose proof (high_S l Hh) as HS. pose proof (high_H l Hh) as HH.
  unfold combined_score, indicator_S, indicator_H, fisher. rewrite fmap_length, Hl. rewrite Hl in HS, HH.
  assert (0 <= INR (S k)) as Hk by apply pos_INR.
  pose proof (chi_tail_antitone k _ _ (conj (ltac:(apply Rmult_le_pos; [done|unfold L0; lra]) : 0 <= INR (S k) * L0) HS)).
  pose proof (chi_tail_antitone k _ _ HH).
  pose proof (chi_tail_lower k (INR (S k) * y0) ltac:(apply Rmult_le_pos; [done|unfold y0; lra])). lra.
Qed.

Lemma pow_le_1 x k : 0 <= x <= 1 -> x ^ k <= 1.
Proof. intros H. rewrite <- (pow1 k). by apply pow_incr. Qed.

Lemma tail_many k : chi_tail (S (3 + k)) (INR (S (3 + k)) * L0) <= 165 / 1000.
Proof.
  eapply Rle_trans; [apply chi_tail_upper; unfold L0; lra|].
  replace (exp (- L0) ^ S (3 + k) * (exp 1 ^ (3 + k) * L0 ^ S (3 + k) / (L0 - 1)))
    with (L0 / (L0 - 1) * (exp (- L0) * (exp 1 * L0 * exp (- L0)) ^ (3 + k))).
  2: { rewrite !Rpow_mult_distr. change (exp (- L0) ^ S (3 + k)) with (exp (- L0) * exp (- L0) ^ (3 + k)).
       change (L0 ^ S (3 + k)) with (L0 * L0 ^ (3 + k)). field. unfold L0. lra. }
  set (r := exp 1 * L0 * exp (- L0)).
  pose proof exp_minus_L0 as [_ He]. pose proof (exp_pos (- L0)) as Hp. pose proof exp_1_upper as H1.
  pose proof (exp_pos 1) as Hp1.
  assert (0 <= r <= 7881 / 10000) as Hr.
  { unfold r. split; [apply Rmult_le_pos; [unfold L0; lra|lra]|].
    apply Rle_trans with (272 / 100 * L0 * (100 / 642)); [|unfold L0; lra].
    apply Rmult_le_compat; [unfold L0; lra|lra|unfold L0; lra|done]. }
  rewrite pow_add. pose proof (pow_le_1 r k ltac:(lra)) as Hk. pose proof (pow_le r k ltac:(lra)) as Hk0.
  assert (r ^ 3 <= (7881 / 10000) ^ 3) as H3 by (apply pow_incr; lra).
  pose proof (pow_le r 3 ltac:(lra)) as H30.
  assert (0 <= r ^ 3 * r ^ k <= (7881 / 10000) ^ 3 * 1) as [Ha Hb].
  { split; [by apply Rmult_le_pos|]. by apply Rmult_le_compat. }
  assert (exp (- L0) * (r ^ 3 * r ^ k) <= 100 / 642 * ((7881 / 10000) ^ 3 * 1)) as Hc.
  { apply Rmult_le_compat; [lra|done|done|done]. }
  eapply Rle_trans; [apply Rmult_le_compat_l; [unfold L0; lra|exact Hc]|]. unfold L0. lra.
Qed.

Lemma rest_many k : (INR (S (3 + k)) * y0) ^ S (3 + k) / INR (fact (S (3 + k))) <= 17 / 1000.
Proof.
  pose proof (pow_succ_fact (3 + k)) as H.
  assert ((INR (S (3 + k)) * y0) ^ S (3 + k) / INR (fact (S (3 + k))) =
          INR (S (3 + k)) ^ (3 + k) / INR (fact (3 + k)) * y0 ^ S (3 + k)) as ->.
  { rewrite Rpow_mult_distr. change (fact (S (3 + k))) with (S (3 + k) * fact (3 + k))%nat.
    rewrite mult_INR. change (INR (S (3 + k)) ^ S (3 + k)) with (INR (S (3 + k)) * INR (S (3 + k)) ^ (3 + k)).
    field. split; [apply INR_fact_neq_0|by apply not_0_INR]. }
  apply Rle_trans with (exp 1 ^ (3 + k) * y0 ^ S (3 + k)).
  { apply Rmult_le_compat_r; [apply pow_le; unfold y0; lra|done]. }
  change (y0 ^ S (3 + k)) with (y0 * y0 ^ (3 + k)).
  replace (exp 1 ^ (3 + k) * (y0 * y0 ^ (3 + k))) with (y0 * (exp 1 * y0) ^ (3 + k)) by (rewrite Rpow_mult_distr; ring).
  set (r := exp 1 * y0). pose proof exp_1_upper as H1. pose proof (exp_pos 1) as Hp1.
  assert (0 <= r <= 4624 / 10000) as Hr by (unfold r, y0; lra).
  rewrite pow_add. pose proof (pow_le_1 r k ltac:(lra)) as Hk. pose proof (pow_le r k ltac:(lra)) as Hk0.
  assert (r ^ 3 <= (4624 / 10000) ^ 3) as H3 by (apply pow_incr; lra).
  pose proof (pow_le r 3 ltac:(lra)) as H30.
  assert (r ^ 3 * r ^ k <= (4624 / 10000) ^ 3 * 1) as Hb by (by apply Rmult_le_compat).
  eapply Rle_trans; [apply Rmult_le_compat_l; [unfold y0; lra|exact Hb]|]. unfold y0. lra.
Qed.

Lemma exp_L0_pow k : exp (- (INR k * L0)) <= (100 / 642) ^ k.
Proof.
  replace (- (INR k * L0)) with (INR k * - L0) by ring. rewrite exp_pow. apply pow_incr.
  pose proof exp_minus_L0. pose proof (exp_pos (- L0)). lra.
Qed.

Lemma tail_2 : chi_tail 2 (INR 2 * L0) <= 115 / 1000.
Proof.
  unfold chi_tail. pose proof (exp_L0_pow 2) as H.
  set (e := exp (- (INR 2 * L0))) in *.
  cbn [exp_terms]. rewrite fact_0, fact_1. change (INR 2) with (1 + 1). cbn [Rpow_def.pow] in *.
  unfold L0. assert (e <= 10000 / 412164) by lra. lra.
Qed.
Lemma tail_3 : chi_tail 3 (INR 3 * L0) <= 85 / 1000.
Proof.
  unfold chi_tail. pose proof (exp_L0_pow 3) as H.
  set (e := exp (- (INR 3 * L0))) in *.
  cbn [exp_terms]. rewrite fact_0, fact_1, fact_2. change (INR 3) with (1 + 1 + 1). cbn [Rpow_def.pow] in *.
  unfold L0. assert (e <= 1000000 / 264609288) by lra. lra.
Qed.

(** Two or more such clues. *)
Lemma combined_several l : (2 <= length l)%nat -> Forall high l -> 9 / 10 + 1 / 1000 < combined_score l.
Proof.
  intros Hl Hh. destruct (length l) as [|[|k]] eqn:E; try lia.
  pose proof (combined_high (S k) l E Hh) as H. clear Hl E Hh. destruct k as [|[|k]].
  - pose proof tail_2. rewrite fact_2 in H. change (INR 2) with (1 + 1) in H at 2. cbn [Rpow_def.pow] in H.
    unfold y0 in H. lra.
  - pose proof tail_3. rewrite fact_3 in H. change (INR 3) with (1 + 1 + 1) in H at 2. cbn [Rpow_def.pow] in H.
    unfold y0 in H. lra.
  - pose proof (tail_many k). pose proof (rest_many k).
    change (S (S (S (S k)))) with (S (3 + k))%nat in H. lra.
Qed.

(** A single clue. *)
Lemma combined_single p : 0 < p < 1 -> combined_score [p] = p.
Proof.
  intros Hp. unfold combined_score, indicator_S, indicator_H, fisher, chi_tail.
  cbn [length fmap list_fmap rsum exp_terms]. rewrite fact_0. cbn [Rpow_def.pow].
  rewrite !Rplus_0_r, !Ropp_involutive, !exp_ln by lra. lra.
Qed.
