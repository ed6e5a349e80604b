(** * Exact arithmetic: lemmas for C08, C09, C10, C16, C17, C18, C19 *)
From Coq Require Import Reals Lra Lia Psatz.
From Flocq Require Import Core.
From Verif Require Import Py NumModel ClassifierModel RealModel RealSpec RealProofs.
Local Open Scope R_scope.

(** ** Word probability *)
Lemma nonempty_total_pos n : (0 <= n)%Z -> 1 <= nonempty_total n.
Proof.
  intros H. unfold nonempty_total. apply IZR_le. destruct (Z.eqb_spec n 0); lia.
Qed.

Lemma fraction_ge0 c n : (0 <= c)%Z -> (0 <= n)%Z -> 0 <= fraction c n.
Proof.
  intros Hc Hn. unfold fraction. apply Rmult_le_pos; [by apply IZR_le|].
  left. apply Rinv_0_lt_compat. pose proof (nonempty_total_pos n Hn). lra.
Qed.

Lemma fraction_gt0 c n : (0 < c)%Z -> (0 <= n)%Z -> 0 < fraction c n.
Proof.
  intros Hc Hn. unfold fraction. apply Rmult_lt_0_compat; [by apply IZR_lt|].
  apply Rinv_0_lt_compat. pose proof (nonempty_total_pos n Hn). lra.
Qed.

Lemma fraction_sum_pos sc ns hc nh : consistent sc ns hc nh ->
  0 < fraction hc nh + fraction sc ns.
Proof.
  intros (H1&H2&H3&H4&H5&_&_). destruct H3 as [H3|H3].
  - assert (0 < sc)%Z as H0 by lia. pose proof (fraction_gt0 sc ns H0 H4).
    pose proof (fraction_ge0 hc nh H2 H5). lra.
  - assert (0 < hc)%Z as H0 by lia. pose proof (fraction_gt0 hc nh H0 H5).
    pose proof (fraction_ge0 sc ns H1 H4). lra.
Qed.

Lemma share_range sc ns hc nh : consistent sc ns hc nh ->
  0 <= spam_share sc ns hc nh <= 1.
Proof.
  intros H. pose proof (fraction_sum_pos _ _ _ _ H). destruct H as (H1&H2&H3&H4&H5&_&_).
  pose proof (fraction_ge0 sc ns H1 H4). pose proof (fraction_ge0 hc nh H2 H5).
  unfold spam_share. split.
  - apply Rmult_le_pos; [done|]. left. by apply Rinv_0_lt_compat.
  - apply (Rmult_le_reg_r (fraction hc nh + fraction sc ns)); [done|].
    unfold Rdiv. rewrite Rmult_assoc, Rinv_l by lra. lra.
Qed.

Lemma consistent_n sc ns hc nh : consistent sc ns hc nh -> 1 <= IZR (hc + sc).
Proof. intros (H1&H2&H3&_). apply IZR_le. lia. Qed.

Lemma prob_formula_exact ns nh r :
  consistent (spamcount r) ns (hamcount r) nh ->
  prob_formula (A:=exact) ns nh r = Ok (robinson (spamcount r) ns (hamcount r) nh).
Proof.
  intros Hc. pose proof (fraction_sum_pos _ _ _ _ Hc) as Hpos.
  destruct Hc as (H1&H2&H3&H4&H5&H6&H7). unfold prob_formula.
  destruct (Z.ltb_spec (if (nh =? 0)%Z then 1%Z else nh) (hamcount r)); [lia|].
  destruct (Z.ltb_spec (if (ns =? 0)%Z then 1%Z else ns) (spamcount r)); [lia|].
  unfold UNKNOWN_WORD_STRENGTH, UNKNOWN_WORD_PROB.
  cbn [ndivZ nadd neq ndiv nmul nZ nQ exact rnum].
  change (IZR (hamcount r) / IZR (if (nh =? 0)%Z then 1%Z else nh)) with (fraction (hamcount r) nh).
  change (IZR (spamcount r) / IZR (if (ns =? 0)%Z then 1%Z else ns)) with (fraction (spamcount r) ns).
  destruct (reqb _ 0) eqn:E; [apply reqb_true in E; lra|].
  reflexivity.
Qed.

Lemma prob_formula_consistent {A : num} ns nh r p :
  (0 <= ns)%Z -> (0 <= nh)%Z -> (0 <= spamcount r)%Z -> (0 <= hamcount r)%Z ->
  (spamcount r <> 0 \/ hamcount r <> 0)%Z ->
  prob_formula (A:=A) ns nh r = Ok p -> consistent (spamcount r) ns (hamcount r) nh.
Proof.
  intros H1 H2 H3 H4 H5. unfold prob_formula.
  destruct (Z.ltb_spec (if (nh =? 0)%Z then 1%Z else nh) (hamcount r)); [done|].
  destruct (Z.ltb_spec (if (ns =? 0)%Z then 1%Z else ns) (spamcount r)); [done|].
  intros _. unfold consistent. split_and!; done || lia.
Qed.

Lemma robinson_alt sc ns hc nh : consistent sc ns hc nh ->
  robinson sc ns hc nh - 1 / 2 =
  IZR (hc + sc) / (45 / 100 + IZR (hc + sc)) * (spam_share sc ns hc nh - 1 / 2).
Proof.
  intros H. pose proof (consistent_n _ _ _ _ H). unfold robinson. cbv zeta. field. lra.
Qed.

Lemma robinson_range sc ns hc nh : consistent sc ns hc nh -> 0 < robinson sc ns hc nh < 1.
Proof.
  intros H. pose proof (consistent_n _ _ _ _ H) as Hn. pose proof (share_range _ _ _ _ H) as Hs.
  unfold robinson. cbv zeta. set (n := IZR (hc + sc)) in *. set (p := spam_share _ _ _ _) in *.
  assert (0 <= n * p <= n) as Hnp.
  { split; [apply Rmult_le_pos; lra|]. rewrite <- (Rmult_1_r n) at 2. apply Rmult_le_compat_l; lra. }
  split.
  - apply Rmult_lt_0_compat; [lra|]. apply Rinv_0_lt_compat. lra.
  - apply (Rmult_lt_reg_r (45 / 100 + n)); [lra|].
    unfold Rdiv at 1. rewrite Rmult_assoc, Rinv_l by lra. lra.
Qed.

Lemma share_half sc ns hc nh : consistent sc ns hc nh ->
  (spam_share sc ns hc nh - 1 / 2) * (2 * (fraction hc nh + fraction sc ns)) =
  fraction sc ns - fraction hc nh.
Proof.
  intros H. pose proof (fraction_sum_pos _ _ _ _ H). unfold spam_share. field. lra.
Qed.

Lemma sign_mul a b c : 0 < a -> a * b = c -> (c = 0 <-> b = 0) /\ (0 < c <-> 0 < b).
Proof.
  intros Ha <-. split; split; intros H.
  - apply Rmult_integral in H as [H|H]; lra.
  - rewrite H. lra.
  - destruct (Rlt_or_le 0 b) as [?|Hb]; [done|]. nra.
  - by apply Rmult_lt_0_compat.
Qed.

Lemma robinson_sign sc ns hc nh : consistent sc ns hc nh ->
  (robinson sc ns hc nh = 1 / 2 <-> fraction sc ns = fraction hc nh) /\
  (1 / 2 < robinson sc ns hc nh <-> fraction hc nh < fraction sc ns).
Proof.
  intros H. pose proof (consistent_n _ _ _ _ H) as Hn.
  pose proof (fraction_sum_pos _ _ _ _ H) as Hf.
  pose proof (robinson_alt _ _ _ _ H) as E1. pose proof (share_half _ _ _ _ H) as E2.
  assert (0 < IZR (hc + sc) / (45 / 100 + IZR (hc + sc))) as Hp.
  { apply Rmult_lt_0_compat; [lra|]. apply Rinv_0_lt_compat. lra. }
  destruct (sign_mul _ _ _ Hp (eq_sym E1)) as [S1 S2].
  rewrite Rmult_comm in E2.
  destruct (sign_mul (2 * (fraction hc nh + fraction sc ns)) _ _ ltac:(lra) E2) as [S3 S4].
  split.
  - split; intros E.
    + assert (fraction sc ns - fraction hc nh = 0); [|lra]. apply S3, S1. lra.
    + assert (robinson sc ns hc nh - 1 / 2 = 0); [|lra]. apply S1, S3. lra.
  - split; intros E.
    + assert (0 < fraction sc ns - fraction hc nh); [|lra]. apply S4, S2. lra.
    + assert (0 < robinson sc ns hc nh - 1 / 2); [|lra]. apply S2, S4. lra.
Qed.

(** Exchanging ham and spam mirrors the probability. *)
Lemma consistent_swap sc ns hc nh : consistent sc ns hc nh -> consistent hc nh sc ns.
Proof. unfold consistent. tauto. Qed.

Lemma robinson_swap sc ns hc nh : consistent sc ns hc nh ->
  robinson hc nh sc ns = 1 - robinson sc ns hc nh.
Proof.
  intros H. pose proof (consistent_n _ _ _ _ H) as Hn.
  pose proof (fraction_sum_pos _ _ _ _ H) as Hf.
  unfold robinson. cbv zeta. rewrite (Z.add_comm sc hc).
  assert (spam_share hc nh sc ns = 1 - spam_share sc ns hc nh) as ->.
  { unfold spam_share. field. lra. }
  field. lra.
Qed.

(** ** Monotonicity of the word probability (C10) *)
Section mono.
  Let c := 45 / 100.
  Let f (h a s : R) : R := (c * (1 / 2) + (h + s) * (s / (a + s))) / (c + (h + s)).

  Lemma f_step h a s : 0 <= s -> 0 <= h -> 0 <= a -> 0 < a + s -> 
    0 <= (a + c / 2) * (s * (s + 1)) + a * (h + c / 2) * (2 * s + 1) + a * (h * (c + h) - c * a / 2) ->
    f h a s <= f h a (s + 1).
  Proof.
    intros Hs Hh Ha Hpos Hnum. assert (0 < c) by (unfold c; lra).
    assert (f h a (s + 1) - f h a s =
      ((a + c / 2) * (s * (s + 1)) + a * (h + c / 2) * (2 * s + 1) + a * (h * (c + h) - c * a / 2)) /
      ((a + s) * (a + (s + 1)) * (c + (h + s)) * (c + (h + (s + 1))))) as E.
    { unfold f. field. split_and!; lra. }
    assert (0 <= f h a (s + 1) - f h a s); [|lra].
    rewrite E. apply Rmult_le_pos; [done|]. left. apply Rinv_0_lt_compat.
    repeat apply Rmult_lt_0_compat; lra.
  Qed.

  Lemma robinson_f sc ns hc nh : consistent sc ns hc nh ->
    robinson sc ns hc nh =
    f (IZR hc) (IZR hc * (nonempty_total ns / nonempty_total nh)) (IZR sc) /\
    0 < IZR hc * (nonempty_total ns / nonempty_total nh) + IZR sc /\
    0 <= IZR hc * (nonempty_total ns / nonempty_total nh).
  Proof.
    intros H. pose proof (consistent_n _ _ _ _ H) as Hn. pose proof (fraction_sum_pos _ _ _ _ H) as Hf.
    destruct H as (H1&H2&H3&H4&H5&_&_).
    pose proof (nonempty_total_pos ns H4) as P1. pose proof (nonempty_total_pos nh H5) as P2.
    unfold fraction in Hf.
    assert (IZR hc * (nonempty_total ns / nonempty_total nh) + IZR sc =
            nonempty_total ns * (IZR hc / nonempty_total nh + IZR sc / nonempty_total ns)) as E.
    { field. lra. }
    assert (0 < IZR hc * (nonempty_total ns / nonempty_total nh) + IZR sc) as Hpos.
    { rewrite E. apply Rmult_lt_0_compat; lra. }
    split_and!; [|done|].
    - unfold robinson, f. cbv zeta. rewrite plus_IZR in *.
      assert (spam_share sc ns hc nh =
        IZR sc / (IZR hc * (nonempty_total ns / nonempty_total nh) + IZR sc)) as ->; [|done].
      unfold spam_share, fraction. rewrite E.
      set (q := IZR hc / nonempty_total nh + IZR sc / nonempty_total ns) in *.
      field. split_and!; lra.
    - apply Rmult_le_pos; [by apply IZR_le|]. apply Rmult_le_pos; [lra|].
      left. apply Rinv_0_lt_compat. lra.
  Qed.

  Lemma robinson_more_spam sc ns hc nh :
    consistent sc ns hc nh -> consistent (sc + 1) ns hc nh ->
    nonempty_total ns <= 11 * nonempty_total nh ->
    robinson sc ns hc nh <= robinson (sc + 1) ns hc nh.
  Proof.
    intros C1 C2 H. destruct (robinson_f _ _ _ _ C1) as (->&Hp&Ha).
    destruct (robinson_f _ _ _ _ C2) as (->&_&_). rewrite plus_IZR.
    destruct C1 as (H1&H2&H3&H4&H5&_&_).
    pose proof (nonempty_total_pos nh H5) as P2. pose proof (nonempty_total_pos ns H4) as P1.
    set (t := nonempty_total ns / nonempty_total nh) in *.
    assert (0 <= t <= 11) as Ht.
    { unfold t. split.
      - apply Rmult_le_pos; [lra|]. left. apply Rinv_0_lt_compat. lra.
      - apply (Rmult_le_reg_r (nonempty_total nh)); [lra|].
        unfold Rdiv. rewrite Rmult_assoc, Rinv_l by lra. lra. }
    assert (0 <= IZR sc) as Is by (by apply IZR_le).
    assert (0 <= IZR hc) as Ih by (by apply IZR_le).
    apply f_step; [done|done|done|done|].
    assert (0 <= (IZR hc * t + c / 2) * (IZR sc * (IZR sc + 1))) as N1.
    { apply Rmult_le_pos; [unfold c; lra|]. apply Rmult_le_pos; lra. }
    assert (0 <= IZR hc * t * (IZR hc + c / 2) * (2 * IZR sc)) as N2.
    { apply Rmult_le_pos; [apply Rmult_le_pos; [done|unfold c; lra]|lra]. }
    assert (0 <= IZR hc * t * (IZR hc + c / 2 + (IZR hc * (c + IZR hc) - c * (IZR hc * t) / 2))) as N3.
    { destruct (Z.eq_dec hc 0) as [->|Hne]; [lra|].
      apply Rmult_le_pos; [done|].
      assert (1 <= IZR hc) as Hh1 by (apply IZR_le; lia).
      assert (IZR hc * t <= IZR hc * 11) by (apply Rmult_le_compat_l; lra).
      unfold c in *. nra. }
    lra.
  Qed.

  Lemma robinson_more_spam_spammy sc ns hc nh :
    consistent sc ns hc nh -> consistent (sc + 1) ns hc nh ->
    fraction hc nh <= fraction sc ns ->
    robinson sc ns hc nh <= robinson (sc + 1) ns hc nh.
  Proof.
    intros C1 C2 H. destruct (robinson_f _ _ _ _ C1) as (->&Hp&Ha).
    destruct (robinson_f _ _ _ _ C2) as (->&_&_). rewrite plus_IZR.
    destruct C1 as (H1&H2&H3&H4&H5&_&_).
    pose proof (nonempty_total_pos nh H5) as P2. pose proof (nonempty_total_pos ns H4) as P1.
    assert (IZR hc * (nonempty_total ns / nonempty_total nh) <= IZR sc) as Hle.
    { unfold fraction in H. apply (Rmult_le_compat_r (nonempty_total ns)) in H; [|lra].
      replace (IZR sc / nonempty_total ns * nonempty_total ns) with (IZR sc) in H by (field; lra).
      replace (IZR hc / nonempty_total nh * nonempty_total ns)
        with (IZR hc * (nonempty_total ns / nonempty_total nh)) in H by (field; lra). done. }
    set (a := IZR hc * (nonempty_total ns / nonempty_total nh)) in *.
    assert (0 <= IZR sc) as Is by (by apply IZR_le).
    assert (0 <= IZR hc) as Ih by (by apply IZR_le).
    apply f_step; [done|done|done|done|].
    assert (0 <= a * (IZR hc * (c + IZR hc)) /\ 0 <= a * (IZR sc * (IZR sc + 1)) /\
            0 <= a * (IZR hc + c / 2) * (2 * IZR sc + 1)) as (N1&N2&N3).
    { assert (0 <= IZR hc * (c + IZR hc)) by (apply Rmult_le_pos; unfold c; lra).
      assert (0 <= IZR sc * (IZR sc + 1)) by (apply Rmult_le_pos; lra).
      split_and!; try (by apply Rmult_le_pos).
      apply Rmult_le_pos; [|lra]. apply Rmult_le_pos; [done|unfold c; lra]. }
    assert (c / 2 * (a * a) <= c / 2 * (IZR sc * (IZR sc + 1))) as N4.
    { apply Rmult_le_compat_l; [unfold c; lra|]. apply Rmult_le_compat; lra. }
    lra.
  Qed.
End mono.

Lemma robinson_more_ham sc ns hc nh :
  consistent sc ns hc nh -> consistent sc ns (hc + 1) nh ->
  nonempty_total nh <= 11 * nonempty_total ns ->
  robinson sc ns (hc + 1) nh <= robinson sc ns hc nh.
Proof.
  intros C1 C2 H. pose proof (robinson_swap _ _ _ _ C1). pose proof (robinson_swap _ _ _ _ C2).
  pose proof (robinson_more_spam hc nh sc ns (consistent_swap _ _ _ _ C1)
                (consistent_swap _ _ _ _ C2) H). lra.
Qed.

Lemma robinson_more_ham_hammy sc ns hc nh :
  consistent sc ns hc nh -> consistent sc ns (hc + 1) nh ->
  fraction sc ns <= fraction hc nh ->
  robinson sc ns (hc + 1) nh <= robinson sc ns hc nh.
Proof.
  intros C1 C2 H. pose proof (robinson_swap _ _ _ _ C1). pose proof (robinson_swap _ _ _ _ C2).
  pose proof (robinson_more_spam_spammy hc nh sc ns (consistent_swap _ _ _ _ C1)
                (consistent_swap _ _ _ _ C2) H). lra.
Qed.

Lemma robinson_not_monotone :
  consistent 0 12 1 1 /\ consistent 1 12 1 1 /\ robinson 1 12 1 1 < robinson 0 12 1 1.
Proof.
  split; [unfold consistent; simpl; lia|]. split; [unfold consistent; simpl; lia|].
  assert (spam_share 0 12 1 1 = 0) as E0.
  { unfold spam_share, fraction, nonempty_total. simpl. field. }
  assert (spam_share 1 12 1 1 = 1 / 13) as E1.
  { unfold spam_share, fraction, nonempty_total. simpl. field. }
  unfold robinson. cbv zeta. rewrite E0, E1.
  change (1 + 1)%Z with 2%Z. change (1 + 0)%Z with 1%Z.
  replace (45 / 100 + 2) with (49 / 20) by lra. replace (45 / 100 + 1) with (29 / 20) by lra. lra.
Qed.

(** ** The chi-squared tail (C18) *)
Lemma exp_terms_deriv k m : derivable_pt_lim (exp_terms (S k)) m (exp_terms k m).
Proof.
  induction k as [|k IH].
  - simpl. apply (derivable_pt_lim_const (0 + 1 / INR 1)).
  - change (exp_terms (S k) m) with (exp_terms k m + m ^ k / INR (fact k)).
    assert (m ^ k / INR (fact k) = INR (S k) * m ^ k * / INR (fact (S k))) as ->.
    { change (fact (S k)) with (S k * fact k)%nat. rewrite mult_INR. field. split.
      - apply INR_fact_neq_0.
      - by apply not_0_INR. }
    apply (derivable_pt_lim_plus (exp_terms (S k)) (fun m => m ^ (S k) / INR (fact (S k)))); [done|].
    apply (derivable_pt_lim_ext (fun m => / INR (fact (S k)) * m ^ (S k))).
    { intros z. unfold Rdiv. apply Rmult_comm. }
    rewrite Rmult_comm. apply derivable_pt_lim_scal. apply (derivable_pt_lim_pow m (S k)).
Qed.

Lemma chi_tail_deriv k m :
  derivable_pt_lim (chi_tail (S k)) m (- (exp (- m) * (m ^ k / INR (fact k)))).
Proof.
  assert (derivable_pt_lim (fun m => exp (- m)) m (exp (- m) * - 1)) as He.
  { apply (derivable_pt_lim_comp Ropp exp); [|apply derivable_pt_lim_exp].
    apply (derivable_pt_lim_opp id), derivable_pt_lim_id. }
  pose proof (derivable_pt_lim_mult _ _ _ _ _ He (exp_terms_deriv k m)) as H.
  unfold mult_fct in H. unfold chi_tail.
  replace (- (exp (- m) * (m ^ k / INR (fact k))))
    with (exp (- m) * - 1 * exp_terms (S k) m + exp (- m) * exp_terms k m); [exact H|].
  change (exp_terms (S k) m) with (exp_terms k m + m ^ k / INR (fact k)). ring.
Qed.

Lemma INR_fact_pos k : 0 < INR (fact k).
Proof. apply lt_0_INR, lt_O_fact. Qed.

Lemma exp_term_ge0 k m : 0 <= m -> 0 <= m ^ k / INR (fact k).
Proof.
  intros H. apply Rmult_le_pos; [by apply pow_le|]. left. apply Rinv_0_lt_compat, INR_fact_pos.
Qed.

Lemma chi_tail_antitone k m1 m2 : 0 <= m1 <= m2 -> chi_tail (S k) m2 <= chi_tail (S k) m1.
Proof.
  intros [H0 [H1| ->]]; [|lra].
  destruct (MVT_cor2 (chi_tail (S k)) (fun m => - (exp (- m) * (m ^ k / INR (fact k)))) m1 m2 H1)
    as (c&E&Hc).
  { intros c _. apply chi_tail_deriv. }
  assert (0 <= exp (- c) * (c ^ k / INR (fact k))).
  { apply Rmult_le_pos; [left; apply exp_pos|]. apply exp_term_ge0. lra. }
  assert (- (exp (- c) * (c ^ k / INR (fact k))) * (m2 - m1) <= 0).
  { rewrite <- Ropp_mult_distr_l. assert (0 <= exp (- c) * (c ^ k / INR (fact k)) * (m2 - m1)).
    { apply Rmult_le_pos; lra. } lra. }
  lra.
Qed.

Lemma exp_terms_0 k : exp_terms (S k) 0 = 1.
Proof.
  induction k as [|k IH]; [simpl; field|].
  change (exp_terms (S (S k)) 0) with (exp_terms (S k) 0 + 0 ^ (S k) / INR (fact (S k))).
  rewrite IH, pow_i by lia. unfold Rdiv. ring.
Qed.

Lemma chi_tail_0 k : chi_tail (S k) 0 = 1.
Proof. unfold chi_tail. by rewrite exp_terms_0, Ropp_0, exp_0, Rmult_1_r. Qed.

Lemma exp_terms_ge1 k m : 0 <= m -> 1 <= exp_terms (S k) m.
Proof.
  intros H. induction k as [|k IH]; [simpl; lra|].
  change (exp_terms (S (S k)) m) with (exp_terms (S k) m + m ^ (S k) / INR (fact (S k))).
  pose proof (exp_term_ge0 (S k) m H). lra.
Qed.

Lemma chi_tail_range k m : 0 <= m -> 0 < chi_tail (S k) m <= 1.
Proof.
  intros H. split.
  - unfold chi_tail. apply Rmult_lt_0_compat; [apply exp_pos|]. pose proof (exp_terms_ge1 k m H). lra.
  - rewrite <- (chi_tail_0 k). apply chi_tail_antitone. lra.
Qed.

Lemma exp_terms_mono_k j k m : 0 <= m -> (j <= k)%nat -> exp_terms j m <= exp_terms k m.
Proof.
  intros H. induction 1 as [|k Hk IH]; [lra|]. simpl. pose proof (exp_term_ge0 k m H). lra.
Qed.

Lemma chi_tail_mono_k j k m : 0 <= m -> (j <= k)%nat -> chi_tail j m <= chi_tail k m.
Proof.
  intros H Hk. unfold chi_tail. apply Rmult_le_compat_l; [left; apply exp_pos|].
  by apply exp_terms_mono_k.
Qed.

Lemma chi_loop_exact k : forall i m e,
  chi_loop exact k (Z.of_nat (S i)) m (e * (m ^ i / INR (fact i))) (e * exp_terms (S i) m) =
  e * exp_terms (S i + k) m.
Proof.
  induction k as [|k IH]; intros i m e.
  - cbn [chi_loop]. by rewrite Nat.add_0_r.
  - cbn [chi_loop nadd nmul ndiv nZ exact rnum].
    replace (Z.of_nat (S i) + 1)%Z with (Z.of_nat (S (S i))) by lia.
    assert (e * (m ^ i / INR (fact i)) * (m / IZR (Z.of_nat (S i))) =
            e * (m ^ S i / INR (fact (S i)))) as ->.
    { rewrite <- INR_IZR_INZ. change (fact (S i)) with (S i * fact i)%nat. rewrite mult_INR.
      change (m ^ S i) with (m * m ^ i). field. split.
      - apply INR_fact_neq_0.
      - by apply not_0_INR. }
    rewrite <- Rmult_plus_distr_l.
    change (exp_terms (S i) m + m ^ S i / INR (fact (S i))) with (exp_terms (S (S i)) m).
    rewrite IH. do 2 f_equal. lia.
Qed.

Lemma chi2Q_exact k x2 : 0 <= x2 ->
  chi2Q exact x2 (2 * Z.of_nat (S k)) = Ok (chi_tail (S k) (x2 / 2)).
Proof.
  intros Hx. unfold chi2Q. rewrite even_land. cbn [negb]. cbv zeta.
  cbn [nexp nneg ndiv nZ nlt nQ exact rnum].
  assert (chi_loop exact (Z.to_nat (2 * Z.of_nat (S k) / 2 - 1)) 1 (x2 / 2)
            (exp (- (x2 / 2))) (exp (- (x2 / 2))) = chi_tail (S k) (x2 / 2)) as E.
  { replace (2 * Z.of_nat (S k) / 2)%Z with (Z.of_nat (S k))
      by (rewrite Z.mul_comm, Z.div_mul; lia).
    replace (Z.to_nat (Z.of_nat (S k) - 1)) with k by lia.
    pose proof (chi_loop_exact k 0 (x2 / 2) (exp (- (x2 / 2)))) as H.
    simpl in H. replace (exp (- (x2 / 2)) * (1 / 1)) with (exp (- (x2 / 2))) in H by field.
    replace (exp (- (x2 / 2)) * (0 + 1 / 1)) with (exp (- (x2 / 2))) in H by field.
    exact H. }
  rewrite E.
  assert (0 <= x2 / 2) as Hm by lra.
  pose proof (chi_tail_range k _ Hm) as [_ Hle].
  destruct (rltb (1 / 1) (chi_tail (S k) (x2 / 2))) eqn:El; [|done].
  apply rltb_true in El. lra.
Qed.

Lemma chi2Q_odd {A : num} x2 v : Z.odd v = true -> chi2Q A x2 v = Err ValueError.
Proof.
  intros H. unfold chi2Q.
  change 1%Z with (Z.ones 1). rewrite Z.land_ones by lia. change (2 ^ 1)%Z with 2%Z.
  rewrite Zmod_odd, H. done.
Qed.

(** ** The scaled products (C19) *)
Fixpoint rprod (l : list R) : R :=
  match l with [] => 1 | x :: l => x * rprod l end.

Lemma rprod_pos l : Forall (fun x => 0 < x) l -> 0 < rprod l.
Proof. induction 1; simpl; [lra|]. by apply Rmult_lt_0_compat. Qed.

Lemma ln_rprod l : Forall (fun x => 0 < x) l -> ln (rprod l) = rsum (ln <$> l).
Proof.
  induction 1 as [|x l Hx Hl IH]; [apply ln_1|].
  rewrite fmap_cons. cbn [rprod rsum]. rewrite ln_mult, IH; [done|done|by apply rprod_pos].
Qed.

Lemma rfrexp_value x : 0 < x ->
  0 < fst (rfrexp x) /\ fst (rfrexp x) * bpow radix2 (snd (rfrexp x)) = x.
Proof.
  intros H. unfold rfrexp. destruct (reqb x 0) eqn:E; [apply reqb_true in E; lra|]. simpl. split.
  - apply Rmult_lt_0_compat; [done|apply bpow_gt_0].
  - rewrite Rmult_assoc, <- bpow_plus.
    replace (- mag radix2 x + mag radix2 x)%Z with 0%Z by lia. simpl. ring.
Qed.

Definition represents (x : R) (e : Z) (v : R) : Prop := 0 < x /\ x * bpow radix2 e = v.

Lemma guard_represents x e v : represents x e v ->
  let g := if nlt exact x (TINY exact) then ((nfrexp exact x).1, (e + (nfrexp exact x).2)%Z) else (x, e) in
  represents g.1 g.2 v.
Proof.
  intros [Hx Hv]. cbv zeta. destruct (nlt exact x (TINY exact)); [|done]. simpl.
  destruct (rfrexp_value x Hx) as [H1 H2]. split; [done|].
  rewrite Z.add_comm, bpow_plus, <- Rmult_assoc, H2. done.
Qed.

Definition acc_rep (a : acc4 exact) (vS vH : R) : Prop :=
  represents (aS exact a) (aSexp exact a) vS /\ represents (aH exact a) (aHexp exact a) vH.

Lemma score_step_rep a p vS vH : acc_rep a vS vH -> 0 < p < 1 ->
  acc_rep (score_step exact a p) ((1 - p) * vS) (p * vH).
Proof.
  intros [[S1 S2] [H1 H2]] Hp. unfold score_step.
  assert (represents (nmul exact (aS exact a) (nsub exact (nZ exact 1) p)) (aSexp exact a) ((1 - p) * vS)) as RS.
  { split; cbn [nmul nsub nZ exact rnum].
    - apply Rmult_lt_0_compat; [done|lra].
    - rewrite <- S2. ring. }
  assert (represents (nmul exact (aH exact a) p) (aHexp exact a) (p * vH)) as RH.
  { split; cbn [nmul nsub nZ exact rnum].
    - apply Rmult_lt_0_compat; [done|lra].
    - rewrite <- H2. ring. }
  exact (conj (guard_represents _ _ _ RS) (guard_represents _ _ _ RH)).
Qed.

Lemma fold_rep ps : Forall (fun p => 0 < p < 1) ps -> forall a vS vH, acc_rep a vS vH ->
  acc_rep (foldl (score_step exact) a ps)
    (rprod ((fun p => 1 - p) <$> ps) * vS) (rprod ps * vH).
Proof.
  induction 1 as [|p ps Hp _ IH]; intros a vS vH Ha.
  - simpl. by rewrite !Rmult_1_l.
  - rewrite fmap_cons. cbn [rprod foldl].
    pose proof (IH _ _ _ (score_step_rep a p vS vH Ha Hp)) as H.
    replace ((1 - p) * rprod ((fun p => 1 - p) <$> ps) * vS)
      with (rprod ((fun p => 1 - p) <$> ps) * ((1 - p) * vS)) by ring.
    replace (p * rprod ps * vH) with (rprod ps * (p * vH)) by ring. exact H.
Qed.

Lemma log_exact x e v : represents x e v ->
  exists l, pylog exact x = Ok l /\ nadd exact l (nmul exact (nZ exact e) (LN2 exact)) = ln v.
Proof.
  intros [Hx Hv]. unfold pylog. destruct (nlt exact (nZ exact 0) x) eqn:E.
  - eexists. split; [done|]. unfold LN2. cbn [nadd nmul nZ nlog exact rnum].
    rewrite <- Hv, ln_mult; [|done|apply bpow_gt_0]. rewrite bpow_exp, ln_exp. done.
  - apply rltb_false in E. cbn [nZ exact rnum] in E. lra.
Qed.

Lemma pos_of_unit ps : Forall (fun p => 0 < p < 1) ps ->
  Forall (fun p => 0 < p) ps /\ Forall (fun p => 0 < p) ((fun p => 1 - p) <$> ps).
Proof.
  intros H. split.
  - eapply Forall_impl; [exact H|]. simpl. intros p Hp. lra.
  - apply Forall_fmap. eapply Forall_impl; [exact H|]. simpl. intros p Hp. lra.
Qed.

Lemma rsum_ln_le0 ps : Forall (fun p => 0 < p <= 1) ps -> rsum (ln <$> ps) <= 0.
Proof.
  induction 1 as [|p ps Hp _ IH]; [simpl; lra|]. rewrite fmap_cons. cbn [rsum].
  assert (ln p <= 0); [|lra].
  destruct (Rle_lt_or_eq_dec p 1) as [L|L]; [lra| |].
  - left. rewrite <- ln_1. apply ln_increasing; lra.
  - rewrite L, ln_1. lra.
Qed.

Lemma score_probs_exact (ps : list (F exact)) : Forall (fun p => 0 < p < 1) ps -> ps <> [] ->
  score_probs exact ps = Ok (combined_score ps, indicator_S ps, indicator_H ps).
Proof.
  intros Hps Hne. unfold score_probs.
  destruct (pos_of_unit ps Hps) as [P1 P2].
  assert (acc_rep (foldl (score_step exact) (Acc exact (nZ exact 1) 0 (nZ exact 1) 0) ps)
            (rprod ((fun p => 1 - p) <$> ps)) (rprod ps)) as [RS RH].
  { pose proof (fold_rep ps Hps (Acc exact (nZ exact 1) 0 (nZ exact 1) 0) 1 1) as H.
    rewrite !Rmult_1_r in H. apply H. split; split; simpl; lra. }
  set (a := foldl _ _ _) in *.
  destruct (log_exact _ _ _ RS) as (lS&->&ES). destruct (log_exact _ _ _ RH) as (lH&->&EH).
  cbn [rbind]. rewrite ES, EH. rewrite ln_rprod by done. rewrite ln_rprod by done.
  destruct ps as [|p0 ps0] eqn:Eps; [done|]. rewrite <- Eps in *. clear a RS RH ES EH.
  assert (length ps = S (length ps0)) as El by (by rewrite Eps).
  destruct (0 <? Z.of_nat (length ps))%Z eqn:En; [|apply Z.ltb_ge in En; lia].
  assert (Forall (fun p => 0 < p <= 1) ps) as Q1.
  { eapply Forall_impl; [exact Hps|]. simpl. intros p Hp. lra. }
  assert (Forall (fun p => 0 < p <= 1) ((fun p => 1 - p) <$> ps)) as Q2.
  { apply Forall_fmap. eapply Forall_impl; [exact Hps|]. simpl. intros p Hp. lra. }
  pose proof (rsum_ln_le0 _ Q1) as L1. pose proof (rsum_ln_le0 _ Q2) as L2.
  assert (forall x, x <= 0 -> chi2Q exact (nmul exact (nZ exact (-2)) x) (2 * Z.of_nat (length ps)) =
            Ok (chi_tail (length ps) (- x))) as Hq.
  { intros x Hx. rewrite El, chi2Q_exact.
    - f_equal. f_equal. cbn [nmul nZ exact rnum]. lra.
    - cbn [nmul nZ exact rnum]. lra. }
  rewrite (Hq _ L2), (Hq _ L1). cbn [rbind].
  unfold combined_score, indicator_S, indicator_H, fisher. rewrite fmap_length. done.
Qed.

Lemma score_probs_exact_nil : exists S H, score_probs exact [] = Ok (1 / 2, S, H).
Proof.
  unfold score_probs, pylog. simpl. destruct (rltb 0 1) eqn:E; [|apply rltb_false in E; lra].
  simpl. eauto.
Qed.

(** ** Permutations and monotonicity of the score (C16, C17) *)
Lemma rsum_perm l1 l2 : l1 ≡ₚ l2 -> rsum l1 = rsum l2.
Proof. induction 1; simpl; lra. Qed.

Lemma fisher_perm l1 l2 : l1 ≡ₚ l2 -> fisher l1 = fisher l2.
Proof. intros H. unfold fisher. by rewrite (Permutation_length H), (rsum_perm _ _ (fmap_Permutation ln _ _ H)). Qed.

Lemma indicators_perm l1 l2 : l1 ≡ₚ l2 ->
  indicator_S l1 = indicator_S l2 /\ indicator_H l1 = indicator_H l2 /\
  combined_score l1 = combined_score l2.
Proof.
  intros H. assert (indicator_H l1 = indicator_H l2) as E1 by by apply fisher_perm.
  assert (indicator_S l1 = indicator_S l2) as E2.
  { apply fisher_perm. by apply fmap_Permutation. }
  unfold combined_score. by rewrite E1, E2.
Qed.

Lemma indicators_mirror l :
  indicator_S ((fun p => 1 - p) <$> l) = indicator_H l /\
  indicator_H ((fun p => 1 - p) <$> l) = indicator_S l /\
  combined_score ((fun p => 1 - p) <$> l) = 1 - combined_score l.
Proof.
  assert (indicator_S ((fun p => 1 - p) <$> l) = indicator_H l) as E.
  { unfold indicator_S, indicator_H. f_equal. rewrite <- list_fmap_compose.
    rewrite <- (list_fmap_id l) at 2. apply list_fmap_ext. intros i x _. unfold compose. simpl. lra. }
  split; [done|]. split; [done|]. unfold combined_score. rewrite E.
  unfold indicator_H at 2. fold (indicator_S l). lra.
Qed.

Lemma rsum_ln_mono l1 l2 : Forall2 (fun a b => 0 < a <= b) l1 l2 ->
  rsum (ln <$> l1) <= rsum (ln <$> l2).
Proof.
  induction 1 as [|a b l1 l2 Hab _ IH]; [simpl; lra|]. rewrite !fmap_cons. cbn [rsum].
  assert (ln a <= ln b); [|lra].
  destruct (Rle_lt_or_eq_dec a b) as [L|L]; [lra| |].
  - left. apply ln_increasing; lra.
  - rewrite L. lra.
Qed.

Lemma fisher_antitone l1 l2 : Forall2 (fun a b => 0 < a <= b /\ b <= 1) l1 l2 -> 
  fisher l2 <= fisher l1.
Proof.
  intros H. unfold fisher. rewrite (Forall2_length _ _ _ H).
  destruct l2 as [|b l2'] eqn:E2.
  { inversion H. subst. simpl. lra. }
  rewrite <- E2 in *. assert (length l2 = S (length l2')) as El by by rewrite E2. rewrite El.
  assert (chi_tail (S (length l2')) (- rsum (ln <$> l1)) <= chi_tail (S (length l2')) (- rsum (ln <$> l2))); [|lra].
  apply chi_tail_antitone.
  assert (rsum (ln <$> l1) <= rsum (ln <$> l2)).
  { apply rsum_ln_mono. eapply Forall2_impl; [exact H|]. simpl. tauto. }
  assert (rsum (ln <$> l2) <= 0).
  { apply rsum_ln_le0. clear -H. induction H; constructor; [lra|done]. }
  lra.
Qed.

Lemma combined_mono l1 l2 : Forall2 (fun a b => 0 < a <= b /\ b < 1) l1 l2 ->
  combined_score l1 <= combined_score l2.
Proof.
  intros H. assert (indicator_H l2 <= indicator_H l1).
  { apply fisher_antitone. eapply Forall2_impl; [exact H|]. simpl. intros; lra. }
  assert (indicator_S l1 <= indicator_S l2).
  { apply fisher_antitone. clear -H. induction H; constructor; [lra|done]. }
  unfold combined_score. lra.
Qed.
