(** * Joining two messages (C133) *)
From Coq Require Import String Reals Lra Lia.
From Flocq Require Import Core.
From Verif Require Import Py NumModel ClassifierModel TrainSpec TrainProofs ScoreProofs SortProofs ScoreSpec ClueProofs TileProofs CorpusProofs RealModel RealSpec RealProofs ExactProofs ApiProofs ShelveApiProofs
  FloatProofs FloatApiProofs MessageModel OnceSpec OnceProofs OnceCases JoinSpec.
Local Open Scope R_scope.

(** ** Sums of two Poisson variables *)
Fixpoint rsumn (n : nat) (f : nat -> R) : R :=
  match n with O => 0 | S n => rsumn n f + f n end.

Lemma rsumn_ext n f g : (forall i, (i < n)%nat -> f i = g i) -> rsumn n f = rsumn n g.
Proof. intros H. induction n as [|n IH]; [done|]. cbn. rewrite IH by (intros; apply H; lia). by rewrite H by lia. Qed.
Lemma rsumn_plus n f g : rsumn n (fun i => f i + g i) = rsumn n f + rsumn n g.
Proof. induction n as [|n IH]; cbn; [ring|]. rewrite IH. ring. Qed.
Lemma rsumn_scal n c f : rsumn n (fun i => c * f i) = c * rsumn n f.
Proof. induction n as [|n IH]; cbn; [ring|]. rewrite IH. ring. Qed.
Lemma rsumn_le n f g : (forall i, (i < n)%nat -> f i <= g i) -> rsumn n f <= rsumn n g.
Proof.
  intros H. induction n as [|n IH]; cbn; [lra|].
  pose proof (IH ltac:(intros; apply H; lia)). pose proof (H n ltac:(lia)). lra.
Qed.
Lemma rsumn_app a b f : rsumn (a + b) f = rsumn a f + rsumn b (fun i => f (a + i)%nat).
Proof. induction b as [|b IH]; [rewrite Nat.add_0_r; cbn; ring|]. rewrite Nat.add_succ_r. cbn. rewrite IH. ring. Qed.

Definition term (x : R) (k : nat) : R := x ^ k / INR (fact k).
Lemma exp_terms_sum n x : exp_terms n x = rsumn n (term x).
Proof. induction n as [|n IH]; [done|]. cbn. by rewrite IH. Qed.

Lemma sum_f_rsumn n f : sum_f_R0 f n = rsumn (S n) f.
Proof. induction n as [|n IH]; [cbn; ring|]. cbn [sum_f_R0]. rewrite IH. done. Qed.

Lemma binomial_term x y n : term (x + y) n = rsumn (S n) (fun j => term y j * term x (n - j)).
Proof.
  unfold term. rewrite Rplus_comm, binomial, sum_f_rsumn. unfold Rdiv at 1. rewrite Rmult_comm, <- rsumn_scal.
  apply rsumn_ext. intros i Hi. unfold C.
  pose proof (INR_fact_neq_0 n). pose proof (INR_fact_neq_0 i). pose proof (INR_fact_neq_0 (n - i)). field. done.
Qed.

Lemma exp_terms_plus n x y : exp_terms n (x + y) = rsumn n (fun j => term y j * exp_terms (n - j) x).
Proof.
  induction n as [|n IH]; [done|].
  change (exp_terms (S n) (x + y)) with (exp_terms n (x + y) + term (x + y) n).
  rewrite IH, binomial_term.
  transitivity (rsumn (S n) (fun j => term y j * exp_terms (n - j) x + term y j * term x (n - j))).
  - rewrite rsumn_plus. f_equal. cbn [rsumn]. rewrite Nat.sub_diag. cbn [exp_terms]. ring.
  - apply rsumn_ext. intros j Hj. replace (S n - j)%nat with (S (n - j)) by lia.
    change (exp_terms (S (n - j)) x) with (exp_terms (n - j) x + term x (n - j)). ring.
Qed.

Lemma chi_tail_plus n x y : chi_tail n (x + y) = rsumn n (fun j => exp (- y) * term y j * chi_tail (n - j) x).
Proof.
  unfold chi_tail. rewrite exp_terms_plus, <- rsumn_scal. apply rsumn_ext. intros j _.
  rewrite Ropp_plus_distr, exp_plus. ring.
Qed.

Lemma chi_tail_sum n y : chi_tail n y = rsumn n (fun j => exp (- y) * term y j).
Proof. unfold chi_tail. by rewrite exp_terms_sum, <- rsumn_scal. Qed.

Lemma term_ge0 y j : 0 <= y -> 0 <= exp (- y) * term y j.
Proof.
  intros H. apply Rmult_le_pos; [left; apply exp_pos|]. apply Rmult_le_pos; [by apply pow_le|].
  left. apply Rinv_0_lt_compat, INR_fact_lt_0.
Qed.

Lemma chi_tail_01 n x : 0 <= x -> 0 <= chi_tail n x <= 1.
Proof.
  intros H. destruct n as [|n]; [unfold chi_tail; cbn; lra|]. pose proof (chi_tail_range n x H). lra.
Qed.

Lemma chi_tail_both a b x y : 0 <= x -> 0 <= y -> chi_tail a x * chi_tail b y <= chi_tail (a + b) (x + y).
Proof.
  intros Hx Hy. rewrite chi_tail_plus. rewrite (Nat.add_comm a b), rsumn_app.
  apply Rle_trans with (rsumn b (fun j => exp (- y) * term y j * chi_tail a x)).
  - rewrite (chi_tail_sum b y), <- rsumn_scal. right. apply rsumn_ext. intros. ring.
  - assert (rsumn b (fun j => exp (- y) * term y j * chi_tail a x) <= rsumn b (fun j => exp (- y) * term y j * chi_tail (b + a - j) x)).
    { apply rsumn_le. intros j Hj. apply Rmult_le_compat_l; [by apply term_ge0|]. apply chi_tail_mono_k; [done|lia]. }
    assert (0 <= rsumn a (fun i => exp (- y) * term y (b + i) * chi_tail (b + a - (b + i)) x)); [|lra].
    apply Rle_trans with (rsumn a (fun _ => 0 * 0)); [rewrite rsumn_scal; lra|].
    apply rsumn_le. intros j Hj. rewrite Rmult_0_l. apply Rmult_le_pos; [by apply term_ge0|]. by apply chi_tail_01.
Qed.

Lemma chi_tail_either a b x y : 0 <= x -> 0 <= y ->
  (1 - chi_tail a x) * (1 - chi_tail b y) <= 1 - chi_tail (a + b) (x + y).
Proof.
  intros Hx Hy. rewrite chi_tail_plus. rewrite (Nat.add_comm a b), rsumn_app.
  assert (rsumn b (fun j => exp (- y) * term y j * chi_tail (b + a - j) x) <= chi_tail b y) as H1.
  { rewrite chi_tail_sum. apply rsumn_le. intros j Hj. pose proof (chi_tail_01 (b + a - j) x Hx). pose proof (term_ge0 y j Hy). nra. }
  assert (rsumn a (fun i => exp (- y) * term y (b + i) * chi_tail (b + a - (b + i)) x) <= chi_tail a x * (1 - chi_tail b y)) as H2.
  { apply Rle_trans with (chi_tail a x * rsumn a (fun i => exp (- y) * term y (b + i))).
    - rewrite <- rsumn_scal. apply rsumn_le. intros j Hj. rewrite Rmult_comm. apply Rmult_le_compat_r; [by apply term_ge0|].
      apply chi_tail_mono_k; [done|lia].
    - apply Rmult_le_compat_l; [by apply chi_tail_01|].
      pose proof (chi_tail_01 (b + a) y Hy) as H. rewrite chi_tail_sum, rsumn_app in H. rewrite (chi_tail_sum b y). lra. }
  nra.
Qed.

(** ** The indicators of joined clues *)
Lemma ln_sum_ge0 l : Forall (fun p => 0 < p < 1) l -> 0 <= - rsum (ln <$> l).
Proof.
  induction 1 as [|p l Hp _ IH]; cbn; [lra|].
  assert (ln p < 0); [|lra]. rewrite <- ln_1. apply ln_increasing; lra.
Qed.
Lemma rsum_app l1 l2 : rsum (l1 ++ l2) = rsum l1 + rsum l2.
Proof. induction l1 as [|x l1 IH]; cbn; [ring|]. rewrite IH. ring. Qed.

Lemma fisher_join l1 l2 : Forall (fun p => 0 < p < 1) l1 -> Forall (fun p => 0 < p < 1) l2 ->
  (1 - fisher l1) * (1 - fisher l2) <= 1 - fisher (l1 ++ l2) /\ fisher l1 * fisher l2 <= fisher (l1 ++ l2) /\
  0 <= fisher l1 <= 1.
Proof.
  intros H1 H2. pose proof (ln_sum_ge0 l1 H1) as P1. pose proof (ln_sum_ge0 l2 H2) as P2.
  unfold fisher. rewrite app_length, fmap_app, rsum_app, Ropp_plus_distr.
  pose proof (chi_tail_both (length l1) (length l2) _ _ P1 P2). pose proof (chi_tail_either (length l1) (length l2) _ _ P1 P2).
  pose proof (chi_tail_01 (length l1) _ P1). lra.
Qed.

(** A score determined by two numbers between 0 and 1 *)
Lemma join_numbers (a c a' c' t e : R) : 0 <= a <= 1 -> 0 <= c <= 1 -> 0 <= a' <= 1 -> 0 <= c' <= 1 -> 0 <= e -> 0 <= t <= 1 ->
  t - e <= (a + c) / 2 -> t - e <= (a' + c') / 2 -> 2 * t - 1 - 2 * e <= (a * a' + c * c') / 2.
Proof.
  intros Ha Hc Ha' Hc' He Ht H1 H2.
  assert (1 - a - a' + 1 - (1 - a) - 0 <= 1) by lra.
  assert (a + a' - 1 <= a * a') by nra. assert (c + c' - 1 <= c * c') by nra. lra.
Qed.

Lemma combined_join l1 l2 t e : Forall (fun p => 0 < p < 1) l1 -> Forall (fun p => 0 < p < 1) l2 -> 0 <= e -> 0 <= t <= 1 ->
  t - e <= combined_score l1 -> t - e <= combined_score l2 -> 2 * t - 1 - 2 * e <= combined_score (l1 ++ l2).
Proof.
  intros H1 H2 He Ht T1 T2.
  assert (forall l, Forall (fun p => 0 < p < 1) l -> Forall (fun p => 0 < p < 1) ((fun p => 1 - p) <$> l)) as Hc.
  { intros l Hl. apply Forall_fmap. eapply Forall_impl; [exact Hl|]. cbn. intros. lra. }
  destruct (fisher_join l1 l2 H1 H2) as (A1&A2&A3). destruct (fisher_join l2 l1 H2 H1) as (_&_&A4).
  destruct (fisher_join _ _ (Hc _ H1) (Hc _ H2)) as (B1&B2&B3). destruct (fisher_join _ _ (Hc _ H2) (Hc _ H1)) as (_&_&B4).
  unfold combined_score, indicator_S, indicator_H in *. rewrite fmap_app.
  pose proof (join_numbers (fisher ((fun p => 1 - p) <$> l1)) (1 - fisher l1) (fisher ((fun p => 1 - p) <$> l2)) (1 - fisher l2) t e
    B3 ltac:(lra) B4 ltac:(lra) He Ht ltac:(lra) ltac:(lra)). lra.
Qed.

(** ** The evidence of a joined message *)
Section join.
  Context {M : machine} (it : set_order) (Hit : set_order_ok it) (h : list call) (Hb : bounded h).
  Notation o := (fst (run mem_backend it h (c_new false ∅ : dobj))).

  Lemma evidence_join s1 s2 s o1 o2 o3 (p1 p2 p3 : R) (ev1 ev2 ev3 : list (pyword * R)) : joins s1 s2 s ->
    spamprob_evidence mem_backend it s1 o = (o1, Ok (p1, ev1)) -> spamprob_evidence mem_backend it s2 o = (o2, Ok (p2, ev2)) ->
    spamprob_evidence mem_backend it s o = (o3, Ok (p3, ev3)) -> separate ev1 ev2 ->
    drop 2 ev3 ≡ₚ drop 2 ev1 ++ drop 2 ev2.
  Proof.
    intros Hj E1 E2 E3 [Hsep Hfew].
    destruct (clues_uni mnum_total it Hit _ _ _ _ _ E1) as (a1&b1&u1&->&N1&_&I1&O1).
    destruct (clues_uni mnum_total it Hit _ _ _ _ _ E2) as (a2&b2&u2&->&N2&_&I2&O2).
    destruct (clues_uni mnum_total it Hit _ _ _ _ _ E3) as (a3&b3&u3&->&N3&_&I3&O3).
    unfold clues in *. cbn [drop] in *. rewrite !drop_0 in *. rewrite !fmap_length in Hfew.
    assert (forall w q, (w, q) ∈ u3 -> (w, q) ∈ u1 ++ u2) as H3.
    { intros w q Hw. destruct (I3 w q Hw) as (Hin&Hq&Hs). apply elem_of_app.
      assert (forall (u' : list (pyword * F D)) (s' : stream), (length u' < 150)%nat -> w ∈ elems s' ->
        (forall w q, (w, q) ∈ u' -> w ∈ elems s' /\ spam_probability o w = Ok q /\ strong (A:=D) q = true) ->
        (forall w q, w ∈ elems s' -> w ∉ u'.*1 -> spam_probability o w = Ok q -> strong (A:=D) q = false \/ (length u' = 150%nat /\ forall w' q', (w', q') ∈ u' -> nle D (strength (A:=D) q) (strength (A:=D) q') = true)) ->
        (w, q) ∈ u') as Hx.
      { intros u' s' Hl Hws Iu Ou. destruct (decide (w ∈ u'.*1)) as [Hi|Hn].
        - apply elem_of_list_fmap in Hi as ([w' q']&->&Hi). cbn in Hq. destruct (Iu _ _ Hi) as (_&Hq'&_).
          rewrite Hq in Hq'. injection Hq' as <-. done.
        - destruct (Ou w q Hws Hn Hq) as [Hf|[Hf _]]; [congruence|lia]. }
      apply Hj in Hin as [Hin|Hin]; [left; apply (Hx u1 s1)|right; apply (Hx u2 s2)]; try done.
      - eapply Nat.le_lt_trans; [|exact Hfew]. apply Nat.le_add_r.
      - eapply Nat.le_lt_trans; [|exact Hfew]. apply Nat.le_add_l. }
    assert (NoDup (u1 ++ u2)) as N12.
    { apply NoDup_app. split_and!; [by eapply NoDup_fmap_1| |by eapply NoDup_fmap_1].
      intros [w q] H1 H2. apply (Hsep w); apply elem_of_list_fmap; exists (w, q); by split. }
    apply NoDup_Permutation; [by eapply NoDup_fmap_1|done|].
    intros [w q]. split; [apply H3|]. intros Hw.
    assert (w ∈ elems s /\ spam_probability o w = Ok q /\ strong (A:=D) q = true) as (Hin&Hq&Hs).
    { apply elem_of_app in Hw as [Hw|Hw]; [destruct (I1 _ _ Hw) as (?&?&?)|destruct (I2 _ _ Hw) as (?&?&?)]; (split_and!; [apply Hj; tauto|done..]). }
    destruct (decide (w ∈ u3.*1)) as [Hi|Hn].
    - apply elem_of_list_fmap in Hi as ([w' q']&->&Hi). cbn in *. destruct (I3 _ _ Hi) as (_&Hq'&_).
      rewrite Hq in Hq'. injection Hq' as <-. done.
    - exfalso. destruct (O3 w q Hin Hn Hq) as [Hf|[Hf _]]; [congruence|].
      assert (u3 ⊆+ u1 ++ u2) as Hsub.
      { apply NoDup_submseteq; [by eapply NoDup_fmap_1|]. intros [w' q']. apply H3. }
      apply submseteq_length in Hsub. rewrite app_length in Hsub. apply (Nat.lt_irrefl 150). rewrite <- Hf at 1. eapply Nat.le_lt_trans; [exact Hsub|exact Hfew].
  Qed.

  Lemma score_join b t s1 s2 s o1 o2 o3 (p1 p2 p3 : R) (ev1 ev2 ev3 : list (pyword * R)) : joins s1 s2 s ->
    spamprob_evidence mem_backend it s1 o = (o1, Ok (p1, ev1)) -> spamprob_evidence mem_backend it s2 o = (o2, Ok (p2, ev2)) ->
    spamprob_evidence mem_backend it s o = (o3, Ok (p3, ev3)) -> separate ev1 ev2 -> 0 <= t <= 1 ->
    t <= side b p1 -> t <= side b p2 -> 2 * t - 1 - 2 / 10 ^ 11 <= side b p3.
  Proof.
    intros Hj E1 E2 E3 Hsep Ht T1 T2. pose proof (evidence_join _ _ _ _ _ _ _ _ _ _ _ _ Hj E1 E2 E3 Hsep) as HP.
    destruct (score_b64 it Hit false h s1 p1 ev1 o1 Hb E1) as (x1&y1&u1&->&R1&_&P1&_).
    destruct (score_b64 it Hit false h s2 p2 ev2 o2 Hb E2) as (x2&y2&u2&->&R2&_&P2&_).
    destruct (score_b64 it Hit false h s p3 ev3 o3 Hb E3) as (x3&y3&u3&->&_&_&P3&_).
    cbn [drop] in HP. rewrite !drop_0 in HP.
    assert (u3.*2 ≡ₚ u1.*2 ++ u2.*2) as HP2 by (rewrite <- fmap_app; by apply fmap_Permutation).
    destruct (indicators_perm _ _ HP2) as (_&_&HC). rewrite HC in P3.
    assert (forall (u : list (pyword * R)), Forall (fun x => 0 < x.2 < 1) u -> Forall (fun p => 0 < p < 1) u.*2) as Hr.
    { intros u Hu. by apply Forall_fmap. }
    apply Rabs_le_inv in P1, P2, P3. cbn [F mnum] in *.
    replace (10 ^ 12) with 1000000000000 in * by (simpl; ring). replace (10 ^ 11) with 100000000000 by (simpl; ring).
    destruct b; unfold side in *.
    - pose proof (combined_join (u1.*2) (u2.*2) t (4 / 1000000000000) (Hr _ R1) (Hr _ R2) ltac:(lra) Ht ltac:(lra) ltac:(lra)). lra.
    - assert (forall l, combined_score ((fun p => 1 - p) <$> l) = 1 - combined_score l) as Hmir by apply indicators_mirror.
      assert (forall l, Forall (fun p => 0 < p < 1) l -> Forall (fun p => 0 < p < 1) ((fun p => 1 - p) <$> l)) as Hc.
      { intros l Hl. apply Forall_fmap. eapply Forall_impl; [exact Hl|]. cbn. intros. lra. }
      pose proof (combined_join ((fun p => 1 - p) <$> u1.*2) ((fun p => 1 - p) <$> u2.*2) t (4 / 1000000000000) (Hc _ (Hr _ R1)) (Hc _ (Hr _ R2))
        ltac:(lra) Ht ltac:(rewrite Hmir; lra) ltac:(rewrite Hmir; lra)) as H.
      rewrite <- fmap_app, Hmir in H. lra.
  Qed.
End join.
