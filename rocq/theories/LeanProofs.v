(** * Messages whose words are at least as frequent on one side (C123) *)
From Coq Require Import Reals Lra Lia String.
From Flocq Require Import Core.
From Verif Require Import Py NumModel ClassifierModel TrainSpec TrainProofs ScoreProofs ScoreSpec ClueProofs TileProofs RealModel RealSpec
  RealProofs ExactProofs ApiProofs FloatProofs FloatApiProofs MessageModel OnceCases SwaySpec SwayProofs FormulaProofs
  CorpusProofs RaiseProofs ObserveModel ObserveSpec ObserveProofs LeanSpec.
Local Open Scope R_scope.

Lemma nonempty_max n : (0 <= n)%Z -> nonempty_total n = IZR (Z.max 1 n).
Proof. intros H. unfold nonempty_total. destruct (Z.eqb_spec n 0) as [->|Hn]; f_equal; lia. Qed.

Lemma total_nonneg b (ms : list message) : (0 <= total b ms)%Z.
Proof. induction ms as [|[ws b'] ms IH]; simpl; [done|]. destruct (eqb b b'); lia. Qed.

Lemma cross_fraction a n c m : (0 <= n)%Z -> (0 <= m)%Z ->
  (a * Z.max 1 m <= c * Z.max 1 n)%Z -> fraction a n <= fraction c m.
Proof.
  intros Hn Hm H. unfold fraction. rewrite !nonempty_max by done.
  apply IZR_le in H. rewrite !mult_IZR in H.
  assert (0 < IZR (Z.max 1 n)) as Pn by (apply IZR_lt; lia). assert (0 < IZR (Z.max 1 m)) as Pm by (apply IZR_lt; lia).
  set (x := IZR (Z.max 1 n)) in *. set (y := IZR (Z.max 1 m)) in *.
  apply div_le; [done|]. replace (IZR c / y * x) with ((IZR c * x) / y) by (field; lra). apply le_div; lra.
Qed.

Lemma leans_formula b ms w : leans b ms w -> if b then 1 / 2 <= formula ms w else formula ms w <= 1 / 2.
Proof.
  intros H. unfold formula. case_bool_decide as Hz; [destruct b; lra|].
  pose proof (containing_consistent w ms Hz) as Hc.
  pose proof (robinson_alt _ _ _ _ Hc) as Ha. pose proof (share_half _ _ _ _ Hc) as Hs.
  pose proof (fraction_sum_pos _ _ _ _ Hc) as Hf. pose proof (consistent_n _ _ _ _ Hc) as Hn.
  pose proof (total_nonneg true ms) as T1. pose proof (total_nonneg false ms) as T2.
  set (r := robinson _ _ _ _) in *. set (sh := spam_share _ _ _ _) in *. set (n := IZR (_ + _)) in *.
  assert (0 < n / (45 / 100 + n)) as Hq by (apply Rdiv_lt_0_compat; lra).
  destruct b; unfold leans in H; cbn [negb] in H.
  - assert (fraction (containing false w ms) (total false ms) <= fraction (containing true w ms) (total true ms)) as F
      by (apply cross_fraction; done).
    assert (0 <= sh - 1 / 2) by nra. nra.
  - assert (fraction (containing true w ms) (total true ms) <= fraction (containing false w ms) (total false ms)) as F
      by (apply cross_fraction; done).
    assert (sh - 1 / 2 <= 0) by nra. nra.
Qed.

(** ** The score of probabilities on one side *)
Lemma halves_score (n : nat) : combined_score (replicate n (1 / 2)) = 1 / 2.
Proof.
  unfold combined_score, indicator_S, indicator_H. rewrite fmap_replicate.
  replace (1 - 1 / 2) with (1 / 2) by lra. lra.
Qed.

Lemma combined_low ps : Forall (fun p => 0 < p <= 1 / 2) ps -> combined_score ps <= 1 / 2.
Proof.
  intros H. rewrite <- (halves_score (length ps)). apply combined_mono.
  induction H; simpl; constructor; [lra|done].
Qed.

Lemma combined_high ps : Forall (fun p => 1 / 2 <= p < 1) ps -> 1 / 2 <= combined_score ps.
Proof.
  intros H. rewrite <- (halves_score (length ps)). apply combined_mono.
  induction H; simpl; constructor; [lra|done].
Qed.

Lemma not_certain {M : machine} (b : bool) (p : R) : (if b then 1 / 2 <= p + 4 / 10 ^ 12 else p <= 1 / 2 + 4 / 10 ^ 12) ->
  classify D p <> (if b then ham else spam).
Proof.
  replace (10 ^ 12) with 1000000000000 by (simpl; ring). intros H.
  unfold classify, ham_cutoff, spam_cutoff. cbn [nlt nQ mnum].
  rewrite (mb (9 / 10) 1), (mb (1 / 5) 1) by (first [apply Rabs_le; lra | simpl; lra]).
  pose proof (Rabs_le_inv _ _ (b64_close (9 / 10) ltac:(lra))) as H1.
  pose proof (Rabs_le_inv _ _ (b64_close (1 / 5) ltac:(lra))) as H2.
  replace (10 ^ 12) with 1000000000000 in * by (simpl; ring).
  destruct (rltb p _) eqn:E1.
  - apply rltb_true in E1. destruct b; cbn iota in H; [lra|done].
  - destruct (rltb _ p) eqn:E2; [|by destruct b]. apply rltb_true in E2. destruct b; cbn iota in H; [done|lra].
Qed.

Section lean.
  Context {M : machine} (it : set_order) (Hit : set_order_ok it) (bg : bool) (h : list call) (ms : list message).
  Context (Hm : matched bg h ms) (Hb : (Z.of_nat (length ms) < 2 ^ 48)%Z) (Hnone : Forall (fun m => WNone ∉ m.1) ms).
  Notation o := (fst (run mem_backend it h (c_new bg ∅ : dobj))).

  Lemma no_none : o_store o !! WNone = None.
  Proof.
    destruct (matched_view it Hit bg _ _ Hm) as (_&_&T3). rewrite T3. unfold expected_record.
    assert (forall b, containing b WNone ms = 0%Z) as Hc.
    { intros b. clear -Hnone. induction Hnone as [|[ws b'] ms Hw _ IH]; simpl in *; [done|].
      rewrite bool_decide_eq_false_2 by done. rewrite andb_false_r, IH; [done|]. by apply Forall_cons in Hnone as [_ ?]. }
    by rewrite !Hc.
  Qed.

  (** The words of the evidence are words, or pairs of words, of the message. *)
  Lemma evidence_candidate s p ev o' : spamprob_evidence mem_backend it s o = (o', Ok (p, ev)) ->
    Forall (fun x => candidate bg (elems s) x.1 /\ spam_probability o x.1 = Ok x.2 /\ strong x.2 = true) (drop 2 ev).
  Proof.
    intros E. pose proof no_none as Hn. clear Hnone Hb Hm. destruct bg.
    - destruct (clues_bi mnum_total it Hit h s p ev o' Hn (proj1 mnum_sane) E) as (eH&eS&rest&used&->&HP&_&_&_&Hin&_).
      cbn [drop]. rewrite drop_0, HP. apply Forall_fmap, Forall_forall. intros [[w q] pos] Hx. cbn [fst snd].
      destruct (Hin w q pos Hx) as (H1&H2&H3). split; [by exists pos|done].
    - destruct (clues_uni mnum_total it Hit h s p ev o' E) as (eH&eS&used&->&_&_&Hin&_).
      cbn [drop]. rewrite drop_0. apply Forall_forall. intros [w q] Hx. by apply Hin.
  Qed.

  Lemma lean_score s b p ev o' : spamprob_evidence mem_backend it s o = (o', Ok (p, ev)) ->
    (forall w, candidate bg (elems s) w -> leans b ms w) ->
    Forall (fun x => if b then 1 / 2 < x.2 else x.2 < 1 / 2) (drop 2 ev) /\
    (if b then 1 / 2 <= p + 4 / 10 ^ 12 else p <= 1 / 2 + 4 / 10 ^ 12) /\
    classify D p <> (if b then ham else spam).
  Proof.
    intros E Hl. pose proof (evidence_candidate s p ev o' E) as Hev.
    pose proof (score_matched it Hit bg h ms s p ev o' Hm Hb E) as Hp.
    assert (Forall (fun x => 0 < x.2 < 1 /\ if b then 1 / 2 < x.2 else x.2 < 1 / 2) (drop 2 ev)) as Hside.
    { eapply Forall_impl; [exact Hev|]. intros [w q] (Hc&Hq&Hs). cbn [fst snd] in *.
      destruct (matched_spam_probability it Hit bg _ _ Hm Hb w) as (q1&Eq1&R1&_). rewrite Hq in Eq1. injection Eq1 as <-.
      destruct (probability_double it Hit bg h ms w Hm Hb) as (q2&Eq2&N2). rewrite Hq in Eq2. injection Eq2 as <-.
      pose proof u_pos as Hu. split; [lra|].
      pose proof (leans_formula b ms w (Hl w Hc)) as Hf.
      destruct (strong_double q (formula ms w) ltac:(lra) N2) as [Hst _]. specialize (Hst Hs).
      replace (10 ^ 15) with 1000000000000000 in * by (simpl; ring).
      replace (10 ^ 14) with 100000000000000 in * by (simpl; ring).
      apply Rabs_le_inv in N2.
      destruct b.
      - rewrite Rabs_pos_eq in Hst by lra. lra.
      - rewrite Rabs_left1 in Hst by lra. lra. }
    assert (if b then 1 / 2 <= p + 4 / 10 ^ 12 else p <= 1 / 2 + 4 / 10 ^ 12) as Hb2.
    { unfold tol in Hp. apply Rabs_le_inv in Hp. destruct b.
      - assert (1 / 2 <= combined_score (drop 2 ev).*2); [|lra].
        apply combined_high, Forall_fmap. eapply Forall_impl; [exact Hside|]. intros [w q] H. simpl in *. lra.
      - assert (combined_score (drop 2 ev).*2 <= 1 / 2); [|lra].
        apply combined_low, Forall_fmap. eapply Forall_impl; [exact Hside|]. intros [w q] H. simpl in *. lra. }
    split; [|split; [done|by apply not_certain]].
    eapply Forall_impl; [exact Hside|]. by intros x [_ ?].
  Qed.
End lean.

(** ** Moving a message *)
Lemma containing_cons b w ws b' ms : containing b w ((ws, b') :: ms) =
  ((if eqb b b' && bool_decide (w ∈ ws) then 1 else 0) + containing b w ms)%Z.
Proof. done. Qed.

Lemma moved_leans ws ms w : w ∈ ws -> leans false ms w -> (total false ms <= 2 * total true ms)%Z ->
  leans false ((ws, true) :: (ws, false) :: (ws, false) :: ms) w.
Proof.
  intros Hw Hl Ht. unfold leans in *. cbn [negb] in *. cbn [containing total eqb]. rewrite bool_decide_eq_true_2 by done. cbn [andb].
  pose proof (containing_le true w ms) as C1. pose proof (containing_le false w ms) as C2.
  pose proof (total_nonneg true ms) as T1. pose proof (total_nonneg false ms) as T2.
  set (cs := containing true w ms) in *. set (ch := containing false w ms) in *.
  set (ns := total true ms) in *. set (nh := total false ms) in *.
  rewrite !Z.max_r by lia.
  destruct (Z.eq_dec nh 0) as [E|E].
  - assert (ch = 0)%Z as Hc0 by lia. rewrite E, Hc0 in *. change (Z.max 1 0) with 1%Z in Hl.
    assert (cs = 0)%Z as -> by lia. lia.
  - rewrite (Z.max_r 1 nh), (Z.max_r 1 ns) in Hl by lia.
    assert (2 * cs + nh <= ch + 2 * ns)%Z as H; [|nia].
    assert (nh * (2 * cs + nh) <= nh * (ch + 2 * ns))%Z; [|nia].
    assert ((2 * ns - nh) * ch <= (2 * ns - nh) * nh)%Z; [|nia].
    apply Z.mul_le_mono_nonneg_l; lia.
Qed.

Lemma moved_state {M : machine} it (Hit : set_order_ok it) (p : program) i j r (tham tspam : watcher) h (s : state D (gmap pyword winfo)) :
  t_spam tham = false -> t_spam tspam = true -> t_class tham = t_class tspam ->
  p_receivers p Added i = [tham] -> p_receivers p Removed i = [tham] -> p_receivers p Added j = [tspam] ->
  s_class s (t_class tspam) = fst (run mem_backend it h (c_new false ∅ : dobj)) -> trainable p r ->
  let s' := (run_ocalls mem_backend it p [OAdd i r None true; ORemove i r true; OAdd j r None true] s).1 in
  let ws := (p_tok p r).1 in
  s_class s' (t_class tspam) =
    fst (run mem_backend it (((h ++ [CLearn (SIter ws) false]) ++ [CLearn (SIter ws) false]) ++ [CLearn (SIter ws) true]) (c_new false ∅ : dobj)).
Proof.
  intros Hh Hs Hc R1 R2 R3 Ho [Hk Ht]. destruct (p_tok p r) as [ws e] eqn:Etok. simpl in Ht. subst e.
  cbv zeta. rewrite !run_app_fst, <- Ho. set (o := s_class s (t_class tspam)) in *.
  assert (o_bigrams o = Some false) as HB by (rewrite Ho; by rewrite run_bigrams).
  assert (forall (o : dobj) b, fst (run mem_backend it [CLearn (SIter ws) b] o) = fst (learn mem_backend it (SIter ws) b o)) as Hrun.
  { intros o' b. cbn [run run_call]. by destruct (learn mem_backend it (SIter ws) b o'). }
  cbn [fst]. rewrite !Hrun.
  destruct (learn_mem it Hit (SIter ws) false false o HB) as (m1&E1&_). rewrite E1. cbn [fst]. set (o1 := Obj _ _ _ _ _) in *. assert (o_bigrams o1 = Some false) as B1 by done. clearbody o1.
  destruct (learn_mem it Hit (SIter ws) false false o1 B1) as (m2&E2&_). rewrite E2. cbn [fst]. set (o2 := Obj _ _ _ _ _) in *. assert (o_bigrams o2 = Some false) as B2 by done. clearbody o2.
  destruct (learn_mem it Hit (SIter ws) true false o2 B2) as (m3&E3&_). rewrite E3. cbn [fst]. set (o3 := Obj _ _ _ _ _) in *.
  clearbody o3.
  cbn [run_ocalls run_ocall fst]. unfold o_add, o_remove, o_send, on_corpus, mbind. rewrite R1, R2, R3.
  cbn [mfor]. unfold o_train. rewrite Hk, Etok, Hh, Hs, Hc. unfold mbind, on_class, remember. cbn [s_class s_corpora s_label].
  change (s_class s (t_class tspam)) with o. rewrite learn_gen_ok, E1.
  simpl. rewrite set_at_eq, learn_gen_ok. rewrite E2.
  simpl. rewrite set_at_eq, learn_gen_ok. rewrite E3.
  simpl. by rewrite set_at_eq.
Qed.

Lemma moved_not_spam {M : machine} it (Hit : set_order_ok it) (p : program) i j r (tham tspam : watcher) h ms (s : state D (gmap pyword winfo)) :
  t_spam tham = false -> t_spam tspam = true -> t_class tham = t_class tspam ->
  p_receivers p Added i = [tham] -> p_receivers p Removed i = [tham] -> p_receivers p Added j = [tspam] ->
  trainable p r -> matched false h ms -> (Z.of_nat (length ms) + 3 < 2 ^ 48)%Z -> Forall (fun m => WNone ∉ m.1) ms ->
  s_class s (t_class tspam) = fst (run mem_backend it h (c_new false ∅ : dobj)) ->
  let ws := (p_tok p r).1 in
  WNone ∉ ws -> one_type false ws ->
  (forall w, w ∈ ws -> leans false ms w) -> (total false ms <= 2 * total true ms)%Z ->
  let s' := (run_ocalls mem_backend it p [OAdd i r None true; ORemove i r true; OAdd j r None true] s).1 in
  s_label s' r = Some true /\
  exists o' q ev, spamprob_evidence mem_backend it (SIter ws) (s_class s' (t_class tspam)) = (o', Ok (q, ev)) /\
    q <= 1 / 2 + 4 / 10 ^ 12 /\ classify D q <> spam.
Proof.
  intros Hh Hs Hc R1 R2 R3 Htr Hm Hb Hnone Ho ws Hn Hty Hl Htot s'.
  assert (o_bigrams (s_class s (t_class tspam)) = Some false) as HB by (rewrite Ho; by rewrite run_bigrams).
  destruct (move_message it Hit p i j r tham tspam false s Hh Hs Hc R1 R2 R3 HB Htr) as (Hlab&_).
  split; [exact Hlab|].
  pose proof (moved_state it Hit p i j r tham tspam h s Hh Hs Hc R1 R2 R3 Ho Htr) as Est. cbv zeta in Est. fold ws s' in Est.
  rewrite Est.
  set (h' := _ ++ [CLearn (SIter ws) true]) in *.
  set (ms' := (ws, true) :: (ws, false) :: (ws, false) :: ms).
  assert (matched false h' ms') as Hm'.
  { unfold h', ms'. apply matched_learn; [|done]. apply matched_learn; [|done]. by apply matched_learn. }
  assert (Z.of_nat (length ms') < 2 ^ 48)%Z as Hb' by (change (Z.of_nat (S (S (S (length ms)))) < 2 ^ 48)%Z; lia).
  assert (Forall (fun m => WNone ∉ m.1) ms') as Hnone' by (unfold ms'; repeat constructor; done).
  destruct (score_returns_b64 it Hit false h' ms' Hm' Hb' (SIter ws) Hnone' Hty) as (o'&q&ev&E).
  exists o', q, ev. split; [done|].
  apply (lean_score it Hit false h' ms' Hm' Hb' Hnone' (SIter ws) false q ev o' E).
  intros w Hw. cbn [candidate elems] in Hw. unfold ms'. by apply moved_leans; [|apply Hl|].
Qed.
