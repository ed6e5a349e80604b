(** * What a training does to the probability of words (C118) *)
From Coq Require Import Reals Lra Lia String.
From Flocq Require Import Core.
From Verif Require Import Py NumModel ClassifierModel TrainSpec TrainProofs ScoreProofs ScoreSpec RealModel RealSpec
  RealProofs ExactProofs ApiProofs FloatProofs FloatApiProofs OnceCases SwaySpec.
Local Open Scope R_scope.

Lemma share_total sc ns hc nh : consistent sc ns hc nh ->
  0 <= spam_share sc ns hc nh - spam_share sc (ns + 1) hc nh <= 1 / IZR (ns + 1).
Proof.
  intros H. pose proof (fraction_sum_pos _ _ _ _ H) as Hf. destruct H as (H1&H2&H3&H4&H5&H6&H7).
  assert (0 <= fraction hc nh) as Ha.
  { unfold fraction. apply Rmult_le_pos; [by apply IZR_le|]. left. apply Rinv_0_lt_compat. pose proof (nonempty_total_pos nh H5). lra. }
  set (a := fraction hc nh) in *.
  assert (1 <= IZR (ns + 1)) as P' by (apply IZR_le; lia).
  assert (0 < 1 / IZR (ns + 1)) as P0 by (apply Rmult_lt_0_compat; [lra|apply Rinv_0_lt_compat; lra]).
  assert (0 <= IZR sc) as Hsc by (by apply IZR_le).
  unfold spam_share. fold a. unfold fraction, nonempty_total in *.
  destruct (Z.eqb_spec (ns + 1) 0) as [|_]; [lia|].
  destruct (Z.eqb_spec ns 0) as [->|Hn].
  { rewrite Z.add_0_l in *. rewrite Rminus_diag_eq by done. lra. }
  assert (IZR (ns + 1) = IZR ns + 1) as Ep by (by rewrite plus_IZR). rewrite Ep in *.
  assert (1 <= IZR ns) as P by (apply IZR_le; lia). set (t := IZR ns) in *.
  destruct (Z.eq_dec sc 0) as [->|Hs].
  { unfold Rdiv in *. rewrite !Rmult_0_l in *. rewrite Rminus_diag_eq by ring. lra. }
  assert (1 <= IZR sc) as Hc by (apply IZR_le; lia). set (x := IZR sc) in *.
  assert (0 <= a * t) as Hat by (apply Rmult_le_pos; lra).
  assert (x / t / (a + x / t) - x / (t + 1) / (a + x / (t + 1)) = a * x / ((a * t + x) * (a * (t + 1) + x))) as ->.
  { field. split_and!; nra. }
  split.
  - apply Rmult_le_pos; [by apply Rmult_le_pos; lra|]. left. apply Rinv_0_lt_compat. apply Rmult_lt_0_compat; nra.
  - apply (Rmult_le_reg_r ((a * t + x) * (a * (t + 1) + x))); [apply Rmult_lt_0_compat; nra|].
    unfold Rdiv at 1. rewrite Rmult_assoc, Rinv_l, Rmult_1_r by (apply Rgt_not_eq; apply Rmult_gt_0_compat; nra).
    apply (Rmult_le_reg_r (t + 1)); [lra|].
    replace (1 / (t + 1) * ((a * t + x) * (a * (t + 1) + x)) * (t + 1)) with ((a * t + x) * (a * (t + 1) + x)) by (field; lra).
    assert (0 <= a * t * (a * (t + 1))) by (apply Rmult_le_pos; nra). assert (0 <= a * t * x) by (apply Rmult_le_pos; lra). nra.
Qed.

Lemma robinson_total sc ns hc nh : consistent sc ns hc nh ->
  0 <= robinson sc ns hc nh - robinson sc (ns + 1) hc nh <= 1 / IZR (ns + 1).
Proof.
  intros H. pose proof (share_total _ _ _ _ H) as [S1 S2]. pose proof (consistent_n _ _ _ _ H) as Hn.
  unfold robinson. cbv zeta. set (n := IZR (hc + sc)) in *. set (d := _ - _) in S1, S2.
  replace (_ - _) with (n / (45 / 100 + n) * d) by (unfold d; field; lra).
  assert (0 < n / (45 / 100 + n)) by (apply Rmult_lt_0_compat; [lra|apply Rinv_0_lt_compat; lra]).
  assert (n / (45 / 100 + n) <= 1).
  { apply (Rmult_le_reg_r (45 / 100 + n)); [lra|]. unfold Rdiv. rewrite Rmult_assoc, Rinv_l by lra. lra. }
  split; [apply Rmult_le_pos; lra|]. nra.
Qed.

Lemma consistent_more sc ns hc nh : consistent sc ns hc nh -> consistent sc (ns + 1) hc nh.
Proof.
  unfold consistent. intros (H1&H2&H3&H4&H5&H6&H7). split_and!; try done; [lia|].
  destruct (Z.eqb_spec ns 0), (Z.eqb_spec (ns + 1) 0); lia.
Qed.

Lemma robinson_total_ham sc ns hc nh : consistent sc ns hc nh ->
  0 <= robinson sc ns hc (nh + 1) - robinson sc ns hc nh <= 1 / IZR (nh + 1).
Proof.
  intros H. apply consistent_swap in H. pose proof (robinson_total _ _ _ _ H) as HR.
  rewrite (robinson_swap hc nh sc ns H), (robinson_swap hc (nh + 1) sc ns (consistent_more _ _ _ _ H)). lra.
Qed.

Lemma containing_consistent w ms : (containing true w ms + containing false w ms <> 0)%Z ->
  consistent (containing true w ms) (total true ms) (containing false w ms) (total false ms).
Proof.
  intros H. pose proof (containing_le true w ms). pose proof (containing_le false w ms). unfold consistent.
  split_and!; try lia; destruct (Z.eqb_spec (total true ms) 0), (Z.eqb_spec (total false ms) 0); lia.
Qed.

Lemma formula_other ms ws (b : bool) w : w ∉ ws ->
  (if b then 0 <= formula ms w - formula ((ws, b) :: ms) w else 0 <= formula ((ws, b) :: ms) w - formula ms w) /\
  Rabs (formula ((ws, b) :: ms) w - formula ms w) <= 1 / IZR (total b ms + 1).
Proof.
  intros Hw. assert (forall b', containing b' w ((ws, b) :: ms) = containing b' w ms) as Ec.
  { intros b'. simpl. rewrite bool_decide_eq_false_2, andb_false_r by done. lia. }
  assert (0 < 1 / IZR (total b ms + 1)) as P0.
  { apply Rmult_lt_0_compat; [lra|apply Rinv_0_lt_compat]. apply IZR_lt. pose proof (containing_le b w ms). lia. }
  unfold formula. rewrite !Ec. case_bool_decide as Hz.
  { rewrite Rminus_diag_eq by done. rewrite Rabs_R0. destruct b; lra. }
  apply containing_consistent in Hz. destruct b; cbn [total eqb].
  - rewrite (Z.add_comm 1), Z.add_0_l. pose proof (robinson_total _ _ _ _ Hz) as [H1 H2]. split; [lra|].
    rewrite Rabs_minus_sym, Rabs_pos_eq by lra. lra.
  - rewrite (Z.add_comm 1), Z.add_0_l. pose proof (robinson_total_ham _ _ _ _ Hz) as [H1 H2]. split; [lra|].
    rewrite Rabs_pos_eq by lra. lra.
Qed.

Lemma formula_range ms w : 0 < formula ms w < 1.
Proof. unfold formula. case_bool_decide as Hz; [lra|]. by apply robinson_range, containing_consistent. Qed.

Section api.
  Context (it : set_order) (Hit : set_order_ok it) (bg : bool).

  Lemma probability_exact h ms w : matched bg h ms ->
    spam_probability (fst (run mem_backend it h (c_new bg ∅ : obj exact (gmap pyword winfo)))) w = Ok (formula ms w).
  Proof.
    intros Hm. pose proof (matched_refines (A:=exact) it Hit bg h ms Hm) as Hr.
    destruct (run mem_backend it h (c_new bg ∅)) as [o rs]. destruct Hr as [(_&T1&T2&T3) _]. cbn [fst].
    unfold spam_probability, formula. rewrite T1, T2, T3. unfold expected_record.
    pose proof (containing_le true w ms). pose proof (containing_le false w ms).
    case_bool_decide as Hz.
    - assert (containing true w ms = 0 /\ containing false w ms = 0)%Z as [-> ->] by lia. done.
    - destruct ((containing true w ms =? 0)%Z && (containing false w ms =? 0)%Z) eqn:Ez.
      + apply andb_true_iff in Ez as [E1%Z.eqb_eq E2%Z.eqb_eq]. lia.
      + apply prob_formula_exact. by apply containing_consistent.
  Qed.

  Lemma probability_double {M : machine} h ms w : matched bg h ms -> (Z.of_nat (length ms) < 2 ^ 48)%Z ->
    exists q, spam_probability (fst (run mem_backend it h (c_new bg ∅ : obj D (gmap pyword winfo)))) w = Ok q /\
      Rabs (q - formula ms w) <= 2 / 10 ^ 15.
  Proof.
    intros Hm Hb. destruct (matched_spam_probability it Hit bg h ms Hm Hb w) as (q&Hq&_&Nq&Zq).
    exists q. split; [done|]. pose proof (formula_range ms w) as HF. unfold formula in *. case_bool_decide as Hz.
    - rewrite (Zq Hz), Rminus_diag_eq by done. rewrite Rabs_R0. simpl. lra.
    - pose proof (containing_le true w ms). pose proof (containing_le false w ms).
      specialize (Nq ltac:(lia)). apply near9 in Nq. eapply Rle_trans; [exact Nq|].
      assert (0 < 2 / 10 ^ 15) by (simpl; lra). nra.
  Qed.
End api.

Lemma other_words_exact it : set_order_ok it -> forall bg h ms s (b : bool) w,
  matched bg h ms -> ~ tokens_of bg s w ->
  let prob h := spam_probability (fst (run mem_backend it h (c_new bg ∅ : obj exact (gmap pyword winfo)))) w in
  exists q q', prob h = Ok q /\ prob (h ++ [CLearn s b]) = Ok q' /\
    (if b then q' <= q else q <= q') /\ Rabs (q' - q) <= 1 / IZR (total b ms + 1).
Proof.
  intros Hit bg h ms s b w Hm Hw prob.
  assert (exists ws, forall w, w ∈ ws <-> tokens_of bg s w) as [ws Hws] by (exists (toks bg s); intros; apply toks_spec).
  exists (formula ms w), (formula ((ws, b) :: ms) w). unfold prob. split_and!.
  - by apply probability_exact.
  - apply probability_exact; [done|]. by constructor.
  - destruct (formula_other ms ws b w) as [H _]; [by rewrite Hws|]. destruct b; lra.
  - apply formula_other. by rewrite Hws.
Qed.

Lemma other_words_double {M : machine} it : set_order_ok it -> forall bg h ms s (b : bool) w,
  matched bg h ms -> (Z.of_nat (length ms) < 2 ^ 47)%Z -> ~ tokens_of bg s w ->
  let prob h := spam_probability (fst (run mem_backend it h (c_new bg ∅ : obj D (gmap pyword winfo)))) w in
  exists q q', prob h = Ok q /\ prob (h ++ [CLearn s b]) = Ok q' /\
    (if b then q' <= q + 4 / 10 ^ 15 else q <= q' + 4 / 10 ^ 15) /\ Rabs (q' - q) <= 1 / IZR (total b ms + 1) + 4 / 10 ^ 15.
Proof.
  intros Hit bg h ms s b w Hm Hb Hw prob.
  assert (exists ws, forall w, w ∈ ws <-> tokens_of bg s w) as [ws Hws] by (exists (toks bg s); intros; apply toks_spec).
  destruct (probability_double it Hit bg h ms w Hm) as (q&Hq&N1); [lia|].
  destruct (probability_double it Hit bg (h ++ [CLearn s b]) ((ws, b) :: ms) w) as (q'&Hq'&N2); [by constructor|cbn [length]; lia|].
  destruct (formula_other ms ws b w) as [H1 H2]; [by rewrite Hws|].
  exists q, q'. split_and!; [done..| |].
  - apply Rabs_le_inv in N1, N2. destruct b; lra.
  - apply Rabs_le. apply Rabs_le_inv in N1, N2, H2. lra.
Qed.

(** ** One message against many *)
Lemma learned_history ms : exists h, matched false h ms.
Proof.
  induction ms as [|[ws b] ms [h Hm]]; [exists []; constructor|].
  exists (h ++ [CLearn (SList ws) b]). apply matched_learn; [done|]. intros w. by rewrite <- tokens_uni.
Qed.

Section many.
  Context (w : pyword) (n : nat) (Hn : (1 <= n)%nat).
  Definition many_ham : list message := replicate n ([w], false) ++ replicate (99 * n) ([], false).

  Lemma many_counts : (containing false w many_ham = Z.of_nat n /\ containing true w many_ham = 0 /\
    total false many_ham = 100 * Z.of_nat n /\ total true many_ham = 0)%Z /\ length many_ham = (100 * n)%nat.
  Proof.
    unfold many_ham. split; [|rewrite app_length, !replicate_length; lia].
    assert (forall k, containing false w (replicate k ([w], false)) = Z.of_nat k /\ containing true w (replicate k ([w], false)) = 0 /\
      containing false w (replicate k ([], false)) = 0 /\ containing true w (replicate k ([], false)) = 0 /\
      total false (replicate k ([w], false)) = Z.of_nat k /\ total true (replicate k ([w], false)) = 0 /\
      total false (replicate k ([], false)) = Z.of_nat k /\ total true (replicate k ([], false)) = 0)%Z as HR.
    { intros k. induction k as [|k IH]; [done|]. destruct IH as (H1&H2&H3&H4&H5&H6&H7&H8).
      cbn [replicate containing total eqb andb]. rewrite H1, H2, H3, H4, H5, H6, H7, H8.
      rewrite (bool_decide_eq_true_2 (w ∈ [w])) by left. rewrite (bool_decide_eq_false_2 (w ∈ [])) by apply not_elem_of_nil. lia. }
    rewrite !containing_app. assert (forall b l1 l2, total b (l1 ++ l2) = total b l1 + total b l2)%Z as Ht.
    { clear. intros b l1 l2. induction l1 as [|[ws b'] l1 IH]; simpl; [done|]. rewrite IH. lia. }
    rewrite !Ht. destruct (HR n) as (H1&H2&H3&H4&H5&H6&H7&H8). destruct (HR (99 * n)%nat) as (K1&K2&K3&K4&K5&K6&K7&K8).
    rewrite H1, H2, K3, K4, H5, H6, K7, K8. lia.
  Qed.

  Lemma many_before : formula many_ham w <= 225 / 1450.
  Proof.
    destruct many_counts as [(E1&E2&E3&E4) _]. unfold formula. rewrite E1, E2, E3, E4. rewrite bool_decide_eq_false_2 by lia.
    destruct (one_label_robinson (Z.of_nat n) (100 * Z.of_nat n) 0) as [_ ->]; [lia|].
    assert (1 <= IZR (Z.of_nat n)) by (apply IZR_le; lia).
    set (x := IZR (Z.of_nat n)) in *. apply (Rmult_le_reg_r (45 / 100 + x)); [lra|].
    replace (225 / 1000 / (45 / 100 + x) * (45 / 100 + x)) with (225 / 1000) by (field; lra). lra.
  Qed.

  Lemma many_after : 9 / 10 + 1 / 100000 <= formula (([w], true) :: many_ham) w.
  Proof.
    destruct many_counts as [(E1&E2&E3&E4) _]. unfold formula. cbn [containing total eqb andb].
    rewrite E1, E2, E3, E4. rewrite (bool_decide_eq_true_2 (w ∈ [w])) by left. change (1 + 0)%Z with 1%Z. rewrite !Z.add_0_l.
    rewrite bool_decide_eq_false_2 by lia.
    assert (1 <= IZR (Z.of_nat n)) as Hx by (apply IZR_le; lia).
    assert (spam_share 1 1 (Z.of_nat n) (100 * Z.of_nat n) = 100 / 101) as Es.
    { unfold spam_share, fraction, nonempty_total. destruct (Z.eqb_spec (100 * Z.of_nat n) 0); [lia|].
      change (1 =? 0)%Z with false. cbv iota. rewrite mult_IZR. field. lra. }
    unfold robinson. cbv zeta. rewrite Es, plus_IZR. set (x := IZR (Z.of_nat n)) in *.
    apply (Rmult_le_reg_r (45 / 100 + (x + 1))); [lra|].
    replace ((45 / 100 * (1 / 2) + (x + 1) * (100 / 101)) / (45 / 100 + (x + 1)) * (45 / 100 + (x + 1)))
      with (45 / 100 * (1 / 2) + (x + 1) * (100 / 101)) by (field; lra). lra.
  Qed.

  Lemma many_outweighed {M : machine} it : set_order_ok it -> (Z.of_nat n < 2 ^ 40)%Z ->
    exists h ms, matched false h ms /\ containing false w ms = Z.of_nat n /\ containing true w ms = 0%Z /\
    let prob h := spam_probability (fst (run mem_backend it h (c_new false ∅ : obj D (gmap pyword winfo)))) w in
    exists q q', prob h = Ok q /\ prob (h ++ [CLearn (SList [w]) true]) = Ok q' /\ q < 1 / 6 /\ 9 / 10 < q'.
  Proof.
    intros Hit Hb. destruct many_counts as [(E1&E2&E3&E4) El]. destruct (learned_history many_ham) as [h Hm].
    exists h, many_ham. split_and!; [done..|].
    destruct (probability_double it Hit false h many_ham w Hm) as (q&Hq&N1); [rewrite El; lia|].
    destruct (probability_double it Hit false (h ++ [CLearn (SList [w]) true]) (([w], true) :: many_ham) w) as (q'&Hq'&N2).
    { apply matched_learn; [done|]. intros v. by rewrite <- tokens_uni. }
    { cbn [length]. rewrite El. lia. }
    exists q, q'. pose proof many_before. pose proof many_after.
    apply Rabs_le_inv in N1, N2. assert (10 ^ 15 = 1000000000000000) as E by (simpl; ring). rewrite E in *. split_and!; [done..|lra|lra].
  Qed.
End many.

(** ** Learning everything again *)
Lemma containing_perm b w ms ms' : ms ≡ₚ ms' -> containing b w ms = containing b w ms' /\ total b ms = total b ms'.
Proof.
  induction 1 as [|[ws b'] ms ms' _ IH|[ws b'] [ws2 b2] ms|ms1 ms2 ms3 _ IH1 _ IH2]; simpl; [done| | |].
  - destruct IH as [-> ->]. done.
  - lia.
  - destruct IH1 as [-> ->]. done.
Qed.

Lemma containing_times b w ms k :
  (containing b w (times k ms) = Z.of_nat k * containing b w ms /\ total b (times k ms) = Z.of_nat k * total b ms)%Z.
Proof.
  induction k as [|k IH]; [done|]. cbn [times]. rewrite containing_app.
  assert (forall l1 l2, total b (l1 ++ l2) = total b l1 + total b l2)%Z as Ht.
  { clear. intros l1 l2. induction l1 as [|[ws b'] l1 IH]; simpl; [done|]. rewrite IH. lia. }
  rewrite Ht. lia.
Qed.

Lemma share_times k sc ns hc nh : consistent sc ns hc nh -> (sc <= ns)%Z -> (hc <= nh)%Z -> (0 < k)%Z ->
  spam_share (k * sc) (k * ns) (k * hc) (k * nh) = spam_share sc ns hc nh.
Proof.
  intros H Hs Hh Hk. destruct H as (H1&H2&H3&H4&H5&_&_).
  assert (forall c t, (0 <= c <= t)%Z -> fraction (k * c) (k * t) = fraction c t) as E.
  { intros c t Hc. unfold fraction, nonempty_total. destruct (Z.eqb_spec t 0) as [->|Ht].
    - rewrite Z.mul_0_r. assert (c = 0)%Z as -> by lia. rewrite Z.mul_0_r. done.
    - destruct (Z.eqb_spec (k * t) 0); [lia|]. rewrite !mult_IZR. assert (IZR k <> 0) by (apply not_0_IZR; lia).
      assert (IZR t <> 0) by (by apply not_0_IZR). field. done. }
  unfold spam_share. rewrite !E by lia. done.
Qed.

Lemma neg_r a b d : d <= 0 -> a <= b -> b * d <= a * d.
Proof. intros. rewrite (Rmult_comm b), (Rmult_comm a). by apply Rmult_le_compat_neg_l. Qed.

Lemma formula_again ms ms' w k : (1 <= k)%nat -> ms' ≡ₚ times k ms ->
  (1 / 2 <= formula ms w -> formula ms w <= formula ms' w <= 1 / 2 + 3 / 2 * (formula ms w - 1 / 2)) /\
  (formula ms w <= 1 / 2 -> 1 / 2 - 3 / 2 * (1 / 2 - formula ms w) <= formula ms' w <= formula ms w).
Proof.
  intros Hk Hp. unfold formula.
  destruct (containing_perm true w _ _ Hp) as [-> ->]. destruct (containing_perm false w _ _ Hp) as [-> ->].
  destruct (containing_times true w ms k) as [-> ->]. destruct (containing_times false w ms k) as [-> ->].
  case_bool_decide as Hz.
  { rewrite bool_decide_eq_true_2 by lia. lra. }
  rewrite bool_decide_eq_false_2 by (rewrite <- Z.mul_add_distr_l, Z.eq_mul_0; lia).
  pose proof (containing_consistent w ms Hz) as Hc. pose proof (containing_le true w ms) as L1. pose proof (containing_le false w ms) as L2.
  set (sc := containing true w ms) in *. set (hc := containing false w ms) in *. set (ns := total true ms) in *. set (nh := total false ms) in *.
  set (z := Z.of_nat k) in *. assert (1 <= z)%Z as H1z by lia.
  assert (consistent (z * sc) (z * ns) (z * hc) (z * nh)) as Hc'.
  { destruct Hc as (K1&K2&K3&K4&K5&_&_). unfold consistent. split_and!; try (apply Z.mul_nonneg_nonneg; lia).
    - destruct K3 as [K3|K3]; [left|right]; nia.
    - assert (z * sc <= z * ns)%Z by (apply Z.mul_le_mono_nonneg_l; lia). destruct (Z.eqb_spec (z * ns) 0); lia.
    - assert (z * hc <= z * nh)%Z by (apply Z.mul_le_mono_nonneg_l; lia). destruct (Z.eqb_spec (z * nh) 0); lia. }
  pose proof (robinson_alt _ _ _ _ Hc) as E1. pose proof (robinson_alt _ _ _ _ Hc') as E2.
  rewrite share_times in E2; [|done|lia..]. set (d := spam_share sc ns hc nh - 1 / 2) in *.
  replace (z * hc + z * sc)%Z with (z * (hc + sc))%Z in E2 by lia. rewrite mult_IZR in E2.
  pose proof (consistent_n _ _ _ _ Hc) as Hn. set (x := IZR (hc + sc)) in *.
  assert (1 <= IZR z) as Hz1 by (by apply IZR_le).
  assert (0 < x / (45 / 100 + x)) as P1 by (apply Rmult_lt_0_compat; [lra|apply Rinv_0_lt_compat; lra]).
  assert (x / (45 / 100 + x) <= IZR z * x / (45 / 100 + IZR z * x)) as P2.
  { apply (Rmult_le_reg_r ((45 / 100 + x) * (45 / 100 + IZR z * x))); [apply Rmult_lt_0_compat; nra|].
    replace (x / (45 / 100 + x) * ((45 / 100 + x) * (45 / 100 + IZR z * x))) with (x * (45 / 100 + IZR z * x)) by (field; lra).
    replace (IZR z * x / (45 / 100 + IZR z * x) * ((45 / 100 + x) * (45 / 100 + IZR z * x))) with (IZR z * x * (45 / 100 + x)) by (field; nra).
    nra. }
  assert (IZR z * x / (45 / 100 + IZR z * x) <= 3 / 2 * (x / (45 / 100 + x))) as P3.
  { apply (Rmult_le_reg_r ((45 / 100 + x) * (45 / 100 + IZR z * x))); [apply Rmult_lt_0_compat; nra|].
    replace (3 / 2 * (x / (45 / 100 + x)) * ((45 / 100 + x) * (45 / 100 + IZR z * x))) with (3 / 2 * x * (45 / 100 + IZR z * x)) by (field; lra).
    replace (IZR z * x / (45 / 100 + IZR z * x) * ((45 / 100 + x) * (45 / 100 + IZR z * x))) with (IZR z * x * (45 / 100 + x)) by (field; nra).
    assert (0 <= x * (IZR z * (x / 2 - 45 / 100))) by (apply Rmult_le_pos; [lra|apply Rmult_le_pos; lra]). nra. }
  split; intros Hs.
  - assert (0 <= d) as Hd by nra. assert (IZR z * x / (45 / 100 + IZR z * x) * d <= 3 / 2 * (x / (45 / 100 + x)) * d) by (by apply Rmult_le_compat_r).
    assert (x / (45 / 100 + x) * d <= IZR z * x / (45 / 100 + IZR z * x) * d) by (by apply Rmult_le_compat_r). lra.
  - assert (d <= 0) as Hd by nra. assert (3 / 2 * (x / (45 / 100 + x)) * d <= IZR z * x / (45 / 100 + IZR z * x) * d) by (by apply neg_r).
    assert (IZR z * x / (45 / 100 + IZR z * x) * d <= x / (45 / 100 + x) * d); [|lra].
    apply neg_r; done || lra.
Qed.

Lemma again_exact it : set_order_ok it -> forall bg h h' ms ms' k w, matched bg h ms -> matched bg h' ms' -> (1 <= k)%nat -> ms' ≡ₚ times k ms ->
  let prob h := spam_probability (fst (run mem_backend it h (c_new bg ∅ : obj exact (gmap pyword winfo)))) w in
  exists q q', prob h = Ok q /\ prob h' = Ok q' /\ (1 / 2 <= q -> q <= q') /\ (q <= 1 / 2 -> q' <= q) /\
    (strong (A:=exact) q = true -> strong (A:=exact) q' = true).
Proof.
  intros Hit bg h h' ms ms' k w Hm Hm' Hk Hp prob. exists (formula ms w), (formula ms' w).
  destruct (formula_again ms ms' w k Hk Hp) as [H1 H2]. split_and!; [by apply probability_exact..|intros; by apply H1|intros; by apply H2|].
  unfold strong, strength, nge. cbn [nabs nsub nQ nlt exact rnum]. rewrite !negb_true_iff. intros H.
  destruct (rltb (Rabs (formula ms' w - 1 / 2)) (1 / 10)) eqn:E; [|done]. apply rltb_true in E.
  assert (rltb (Rabs (formula ms w - 1 / 2)) (1 / 10) = true) as Hc; [|congruence]. apply rltb_true.
  revert E. unfold Rabs. repeat destruct (Rcase_abs _); lra.
Qed.

Lemma again_double {M : machine} it : set_order_ok it -> forall bg h h' ms ms' k w, matched bg h ms -> matched bg h' ms' -> (1 <= k)%nat -> ms' ≡ₚ times k ms ->
  (Z.of_nat (length ms') < 2 ^ 48)%Z ->
  let prob h := spam_probability (fst (run mem_backend it h (c_new bg ∅ : obj D (gmap pyword winfo)))) w in
  exists q q', prob h = Ok q /\ prob h' = Ok q' /\ (1 / 2 <= q -> q <= q' + 8 / 10 ^ 15) /\ (q <= 1 / 2 -> q' <= q + 8 / 10 ^ 15).
Proof.
  intros Hit bg h h' ms ms' k w Hm Hm' Hk Hp Hb prob.
  assert (length ms <= length ms')%nat as Hl.
  { rewrite Hp. destruct k as [|k]; [lia|]. cbn [times]. rewrite app_length. lia. }
  destruct (probability_double it Hit bg h ms w Hm) as (q&Hq&N1); [lia|].
  destruct (probability_double it Hit bg h' ms' w Hm') as (q'&Hq'&N2); [lia|].
  destruct (formula_again ms ms' w k Hk Hp) as [H1 H2]. apply Rabs_le_inv in N1, N2.
  exists q, q'. split_and!; [done..| |]; intros Hs;
    (destruct (Rle_dec (1 / 2) (formula ms w)) as [Hf|Hf]; [specialize (H1 Hf)|specialize (H2 ltac:(lra))]).
  all: assert (0 < 1 / 10 ^ 15) by (simpl; lra); lra.
Qed.
