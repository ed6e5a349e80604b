(** * Numeric properties of scoring for reachable classifiers
    (C08, C14, C16, C17, C19, C21) *)
From Coq Require Import Reals Lra Lia String.
From Flocq Require Import Core.
From Verif Require Import Py NumModel ClassifierModel TrainSpec TrainProofs ScoreProofs
  SortProofs ScoreSpec ClueProofs TileProofs RealModel RealSpec RealProofs ExactProofs.
Local Open Scope R_scope.

Lemma tile_elem {A : num} (raw : list (clue A * list Z)) : forall seen x,
  x ∈ tile seen raw -> x ∈ raw.
Proof.
  induction raw as [|[c idx] raw IH]; intros seen x; simpl; [done|].
  destruct (existsb _ idx).
  - intros Hx. right. by eapply IH.
  - intros [->|Hx]%elem_of_cons; [left|right; by eapply IH].
Qed.

(** Every clue that is used is the clue of its word. *)
Lemma pclues_elem {A : num} (HA : total_num A) it lk ns nh bg ws (cs : list (clue A)) c :
  set_order_ok it -> pclues it lk ns nh bg ws = Ok cs -> c ∈ cs ->
  word_clue lk ns nh (c_word c) = Ok c.
Proof.
  intros Hit. destruct bg as [[]|]; simpl; [| |done].
  - unfold pclues_bi.
    destruct (pbigram_raw lk ns nh 0 WNone WNone ws (∅, [])) as [acc|e] eqn:Er; simpl; [|done].
    destruct (occurs_seen HA lk ns nh ws acc Er) as ([I1 I2 I3 I4]&_).
    unfold sort_raw_reverse. destruct (any_clash _); simpl; [done|]. intros [= <-].
    intros Hc%strongest_elem. rewrite elem_of_reverse in Hc.
    apply elem_of_list_fmap in Hc as (x&->&Hx). apply tile_elem in Hx.
    rewrite elem_of_reverse in Hx. rewrite isort_Permutation in Hx. by apply I3.
  - intros E Hc. destruct (pclues_uni_spec HA lk ns nh it ws cs Hit E) as (_&_&_&H&_).
    by apply H.
Qed.

Section ranges.
  Context (rnd : R -> R) (Hr : rounding rnd) (it : set_order) (Hit : set_order_ok it).
  Notation A := (rnum rnd).
  Notation mobj := (obj A (gmap pyword winfo)).

  Lemma spam_probability_range (o : mobj) w q : counts_ok o -> spam_probability o w = Ok q ->
    0 <= q <= 1.
  Proof.
    intros (_&_&Hw). unfold spam_probability. destruct (o_store o !! w) as [r|] eqn:E.
    - apply Hw in E as (H1&H2&H3). by apply prob_formula_range.
    - intros [= <-]. cbn [nQ rnum]. rewrite (rnd_half rnd Hr). lra.
  Qed.

  (** C14 *)
  Lemma score_range bg h s p ev o' :
    let o := fst (run mem_backend it h (c_new bg ∅ : mobj)) in
    spamprob_evidence mem_backend it s o = (o', Ok (p, ev)) ->
    0 <= p <= 1 /\
    exists H S rest, ev = (WBytes (str "*H*"), H) :: (WBytes (str "*S*"), S) :: rest /\
      (rest <> [] -> 0 <= H <= 1 /\ 0 <= S <= 1) /\
      Forall (fun x => 0 <= x.2 <= 1) rest.
  Proof.
    intros o E. assert (mgood o) as Hg by apply (reachable_good it Hit).
    assert (counts_ok o) as Hok by apply (reachable_wf it Hit).
    destruct (score_evidence_inv it s o o' p ev Hg E) as (cs&S&H&Ec&Es&->).
    assert (Forall (fun q => 0 <= q <= 1) (c_prob <$> cs)) as Hps.
    { apply Forall_fmap, Forall_forall. intros c Hc.
      pose proof (pclues_elem (rnum_total rnd) it _ _ _ _ _ _ _ Hit Ec Hc) as Hw.
      apply word_clue_Ok in Hw as (_&_&Hq&_). by apply (spam_probability_range o) in Hq. }
    destruct (score_probs_range rnd Hr _ _ _ _ Hps Es) as [Hp Hi]. split; [done|].
    destruct (evidence_tail (rnum_total rnd) cs S H) as (rest&->&HP&_).
    exists H, S, rest. split; [done|]. split.
    - intros Hne. destruct Hi as [I1 I2]; [|done]. intros Hnil. apply Hne.
      apply fmap_nil_inv in Hnil as ->. by apply Permutation_nil_r in HP.
    - rewrite HP. unfold ev_pairs. apply Forall_fmap. apply Forall_fmap in Hps. exact Hps.
  Qed.
End ranges.

Section exact.
  Notation mobj := (obj exact (gmap pyword winfo)).
  Lemma Hex : total_num exact.
  Proof. exact (rnum_total (fun x => x)). Qed.

  Lemma spam_probability_robinson (o : mobj) w r : counts_ok o -> o_store o !! w = Some r ->
    forall q, spam_probability o w = Ok q ->
    consistent (spamcount r) (o_nspam o) (hamcount r) (o_nham o) /\
    q = robinson (spamcount r) (o_nspam o) (hamcount r) (o_nham o).
  Proof.
    intros (N1&N2&Hw) E q. unfold spam_probability. rewrite E. intros Hq.
    destruct (Hw w r E) as (H1&H2&H3).
    pose proof (prob_formula_consistent _ _ r q N1 N2 H1 H2 H3 Hq) as Hc. split; [done|].
    rewrite (prob_formula_exact _ _ _ Hc) in Hq. congruence.
  Qed.

  Lemma spam_probability_strict (o : mobj) w q : counts_ok o -> spam_probability o w = Ok q ->
    0 < q < 1.
  Proof.
    intros Hok Hq. destruct (o_store o !! w) as [r|] eqn:E.
    - destruct (spam_probability_robinson o w r Hok E q Hq) as [Hc ->]. by apply robinson_range.
    - unfold spam_probability in Hq. rewrite E in Hq. injection Hq as <-. simpl. lra.
  Qed.

  Lemma clues_strict it (Hit : set_order_ok it) (o : mobj) bg ws (cs : list (clue exact)) : counts_ok o ->
    pclues it (mlook (o_store o)) (o_nspam o) (o_nham o) bg ws = Ok cs ->
    Forall (fun q => 0 < q < 1) (c_prob <$> cs).
  Proof.
    intros Hok Ec. apply Forall_fmap, Forall_forall. intros c Hc.
    pose proof (pclues_elem Hex it _ _ _ _ _ _ _ Hit Ec Hc) as Hw.
    apply word_clue_Ok in Hw as (_&_&Hq&_). by apply (spam_probability_strict o) in Hq.
  Qed.

  Lemma score_probs_total (ps : list (F exact)) : Forall (fun q => 0 < q < 1) ps ->
    exists p S H, score_probs exact ps = Ok (p, S, H) /\ p = combined_score ps /\
      (ps <> [] -> S = indicator_S ps /\ H = indicator_H ps).
  Proof.
    intros Hps. destruct ps as [|x ps'] eqn:Eps.
    - destruct score_probs_exact_nil as (S&H&E). exists (1 / 2), S, H. split; [done|].
      split; [|done]. unfold combined_score, indicator_S, indicator_H, fisher, chi_tail. simpl. lra.
    - rewrite <- Eps in *. assert (ps <> []) as Hne by by rewrite Eps.
      eexists _, _, _. split; [by apply score_probs_exact|]. done.
  Qed.

  (** C19: the score is Fisher's combination of the reported probabilities. *)
  Lemma score_exact it (Hit : set_order_ok it) bg h s p ev o' :
    let o := fst (run mem_backend it h (c_new bg ∅ : mobj)) in
    spamprob_evidence mem_backend it s o = (o', Ok (p, ev)) ->
    exists H S rest, ev = (WBytes (str "*H*"), H) :: (WBytes (str "*S*"), S) :: rest /\
      Forall (fun x => 0 < x.2 < 1) rest /\
      p = combined_score (rest.*2) /\
      (rest <> [] -> S = indicator_S (rest.*2) /\ H = indicator_H (rest.*2)).
  Proof.
    intros o E. assert (mgood o) as Hg by apply (reachable_good it Hit).
    assert (counts_ok o) as Hok by apply (reachable_wf it Hit).
    destruct (score_evidence_inv it s o o' p ev Hg E) as (cs&S&H&Ec&Es&->).
    pose proof (clues_strict it Hit o _ _ _ Hok Ec) as Hps.
    destruct (score_probs_total _ Hps) as (p'&S'&H'&Es'&Hp&Hi). rewrite Es' in Es.
    apply Ok3_inj in Es as (->&->&->).
    destruct (evidence_tail Hex cs S H) as (rest&->&HP&_).
    assert (rest.*2 ≡ₚ c_prob <$> cs) as HP2.
    { rewrite HP. unfold ev_pairs. by rewrite <- list_fmap_compose. }
    destruct (indicators_perm _ _ HP2) as (I1&I2&I3).
    exists H, S, rest. split; [done|]. split_and!.
    - rewrite HP. unfold ev_pairs. apply Forall_fmap. apply Forall_fmap in Hps. exact Hps.
    - by rewrite I3.
    - intros Hne. rewrite I1, I2. apply Hi. intros Hnil. apply Hne.
      apply fmap_nil_inv in Hnil as ->. by apply Permutation_nil_r in HP.
  Qed.

  (** C17 *)
  Lemma score_monotone it1 it2 bg1 bg2 h1 h2 s1 s2 p1 p2 ev1 ev2 o1' o2' :
    set_order_ok it1 -> set_order_ok it2 ->
    spamprob_evidence mem_backend it1 s1
      (fst (run mem_backend it1 h1 (c_new bg1 ∅ : mobj))) = (o1', Ok (p1, ev1)) ->
    spamprob_evidence mem_backend it2 s2
      (fst (run mem_backend it2 h2 (c_new bg2 ∅ : mobj))) = (o2', Ok (p2, ev2)) ->
    Forall2 (fun a b => a.2 <= b.2) (drop 2 ev1) (drop 2 ev2) ->
    p1 <= p2.
  Proof.
    intros Hit1 Hit2 E1 E2 Hle.
    destruct (score_exact it1 Hit1 bg1 h1 s1 p1 ev1 o1' E1) as (H1&S1&r1&->&F1&->&_).
    destruct (score_exact it2 Hit2 bg2 h2 s2 p2 ev2 o2' E2) as (H2&S2&r2&->&F2&->&_).
    simpl in Hle. rewrite drop_0 in Hle. change (drop 0 r2) with r2 in Hle.
    apply combined_mono. clear -Hle F1 F2. induction Hle as [|a b r1 r2 Hab _ IH]; [constructor|].
    inversion F1; inversion F2; subst. rewrite !fmap_cons. constructor; [simpl in *; lra|auto].
  Qed.

  (** C08 *)
  Lemma matched_counts bg h ms it (Hit : set_order_ok it) : matched bg h ms ->
    let o := fst (run mem_backend it h (c_new bg ∅ : mobj)) in
    forall w, exists q, spam_probability o w = Ok q.
  Proof.
    intros Hm o w. pose proof (matched_refines (A:=exact) it Hit bg h ms Hm) as Hr.
    assert (counts_ok o) as Hok by apply (reachable_wf it Hit).
    unfold spam_probability.
    destruct (o_store o !! w) as [r|] eqn:E; [|eauto].
    destruct Hok as (N1&N2&Hw). destruct (Hw w r E) as (H1&H2&H3).
    unfold o in *. destruct (run mem_backend it h (c_new bg ∅ : mobj)) as [o' rs]. simpl in *.
    destruct Hr as [(_&T1&T2&T3) _]. specialize (T3 w). rewrite E in T3.
    unfold expected_record in T3. destruct (_ && _) in T3; [done|]. injection T3 as ->.
    assert (forall b, (containing b w ms <= total b ms)%Z) as Hle.
    { intros b. clear. induction ms as [|[ws b'] ms IH]; simpl; [lia|].
      destruct (eqb b b'); simpl; [|lia]. destruct (bool_decide _); lia. }
    eexists. apply prob_formula_exact. simpl in *. unfold consistent.
    pose proof (Hle true). pose proof (Hle false). rewrite T1, T2 in *.
    destruct (Z.eqb_spec (total true ms) 0), (Z.eqb_spec (total false ms) 0); lia.
  Qed.

  Lemma matched_no_none bg h ms it (Hit : set_order_ok it) : matched bg h ms ->
    Forall (fun m => WNone ∉ m.1) ms ->
    o_store (fst (run mem_backend it h (c_new bg ∅ : mobj))) !! WNone = None.
  Proof.
    intros Hm Hf. pose proof (matched_refines (A:=exact) it Hit bg h ms Hm) as Hr.
    destruct (run mem_backend it h (c_new bg ∅ : mobj)) as [o' rs]. simpl in *.
    destruct Hr as [(_&_&_&T3) _]. rewrite T3. unfold expected_record.
    assert (forall b, containing b WNone ms = 0%Z) as Hc.
    { intros b. clear -Hf. induction Hf as [|[ws b'] ms Hw _ IH]; simpl in *; [done|].
      rewrite bool_decide_eq_false_2 by done. rewrite andb_false_r. lia. }
    by rewrite !Hc.
  Qed.

  Lemma score_returns bg h ms it s : set_order_ok it -> matched bg h ms ->
    Forall (fun m => WNone ∉ m.1) ms -> one_type bg (elems s) ->
    exists o' p ev, spamprob_evidence mem_backend it s
      (fst (run mem_backend it h (c_new bg ∅ : mobj))) = (o', Ok (p, ev)).
  Proof.
    intros Hit Hm Hnone Hty. set (o := fst _).
    assert (mgood o) as Hg by apply (reachable_good it Hit).
    assert (counts_ok o) as Hok by apply (reachable_wf it Hit).
    assert (o_bigrams o = Some bg) as Hbg by (unfold o; by rewrite run_bigrams).
    pose proof (matched_counts bg h ms it Hit Hm) as Hq. fold o in Hq. cbv zeta in Hq.
    pose proof (matched_no_none bg h ms it Hit Hm Hnone) as Hn. fold o in Hn.
    assert (strong (A:=exact) (nQ exact 1 2) = false) as Hs0.
    { unfold strong, strength, nge. cbn [nabs nsub nQ nlt exact rnum].
      replace (1 / 2 - 1 / 2) with 0 by lra. rewrite Rabs_R0.
      destruct (rltb 0 (1 / 10)) eqn:E; [done|]. apply rltb_false in E. lra. }
    destruct (mem_score it s o Hg) as (o1&->&_&_). rewrite Hbg. unfold pscore_evidence.
    assert (exists cs, pclues (A:=exact) it (mlook (o_store o)) (o_nspam o) (o_nham o) (Some bg) (elems s) = Ok cs)
      as [cs Ec].
    { destruct bg; simpl.
      - destruct (pclues_bi_TypeError Hex (mlook (o_store o)) (o_nspam o) (o_nham o) Hn Hs0 (elems s))
          as [T1 T2]; [intros w pos _; apply Hq|].
        destruct (pclues_bi _ _ _ _) as [cs|e] eqn:Ec; [eauto|]. exfalso.
        rewrite (T2 e eq_refl) in T1. destruct (proj1 T1 eq_refl) as (w1&w2&_&_&[p1 O1]&[p2 O2]&Hk&_).
        apply Hk. simpl in Hty.
        assert (forall w pos, occurs (elems s) w pos -> wkind w = 0%N) as Hstr.
        { intros w pos [(i&Hi&_)|(i&x&y&_&_&->&_)]; [|done].
          destruct (Hty w) as [t ->]; [by eapply elem_of_list_lookup_2|done]. }
        by rewrite (Hstr _ _ O1), (Hstr _ _ O2).
      - destruct (pclues_uni_TypeError Hex (mlook (o_store o)) (o_nspam o) (o_nham o) it (elems s) Hit)
          as [T1 T2]; [intros w _; apply Hq|].
        destruct (pclues_uni _ _ _ _ _) as [cs|e] eqn:Ec; [eauto|]. exfalso.
        rewrite (T2 e eq_refl) in T1. destruct (proj1 T1 eq_refl) as (w1&w2&_&_&O1&O2&Hk&_).
        apply Hk. by apply Hty. }
    rewrite Ec. cbn [rbind].
    destruct (score_probs_total _ (clues_strict it Hit o _ _ _ Hok Ec)) as (p&S&H&->&_&_).
    simpl. eauto.
  Qed.
End exact.

(** ** Exchanging the labels (C16) *)
Definition wswap (r : winfo) : winfo := WI (hamcount r) (spamcount r).

Definition swapped {A : num} (o1 o2 : obj A (gmap pyword winfo)) : Prop :=
  o_bigrams o2 = o_bigrams o1 /\ o_nspam o2 = o_nham o1 /\ o_nham o2 = o_nspam o1 /\
  forall w, o_store o2 !! w = wswap <$> o_store o1 !! w.

Lemma swapped_train {A : num} (o1 o2 o1' o2' : obj A (gmap pyword winfo)) :
  swapped o1 o2 -> same_training o1' o1 -> same_training o2' o2 -> swapped o1' o2'.
Proof.
  intros (H1&H2&H3&H4) (S1&S2&S3&S4) (T1&T2&T3&T4). unfold swapped.
  rewrite S1, S2, S3, S4, T1, T2, T3, T4. done.
Qed.

Lemma bump_swap b r : bump (negb b) (wswap r) = wswap (bump b r).
Proof. by destruct b. Qed.

Lemma unbump_swap b r : unbump_opt (negb b) (wswap <$> r) = wswap <$> unbump_opt b r.
Proof.
  unfold unbump_opt. destruct r as [r|]; [|done]. simpl.
  assert (unbump (negb b) (wswap r) = wswap (unbump b r)) as ->.
  { unfold unbump. destruct b; simpl; [destruct (0 <? spamcount r)%Z|destruct (0 <? hamcount r)%Z]; done. }
  assert (is_zero (wswap (unbump b r)) = is_zero (unbump b r)) as ->.
  { unfold is_zero, wswap. simpl. by rewrite andb_comm. }
  by destruct (is_zero _).
Qed.

Lemma run_call_swap {A : num} it1 it2 c (o1 o2 : obj A (gmap pyword winfo)) bg :
  set_order_ok it1 -> set_order_ok it2 -> o_bigrams o1 = Some bg ->
  swapped o1 o2 ->
  swapped (fst (run_call mem_backend it1 c o1)) (fst (run_call mem_backend it2 (opposite c) o2)).
Proof.
  intros Hit1 Hit2 Hbg Hs. pose proof Hs as (B&N1&N2&L). assert (o_bigrams o2 = Some bg) as Hbg2 by congruence.
  destruct c as [s b|s b|s]; simpl.
  - destruct (learn_mem it1 Hit1 s b bg o1 Hbg) as (m1&->&L1).
    destruct (learn_mem it2 Hit2 s (negb b) bg o2 Hbg2) as (m2&->&L2). simpl.
    unfold swapped. simpl. rewrite N1, N2. split_and!; [done|by destruct b..|].
    intros w. rewrite L1, L2, L. destruct (bool_decide _); [|done].
    destruct (o_store o1 !! w) as [r|]; simpl; [by rewrite bump_swap|].
    by destruct b.
  - destruct (Z_le_gt_dec (if b then o_nspam o1 else o_nham o1) 0) as [Hz|Hz].
    + rewrite (unlearn_mem_zero it1 s b bg o1 Hbg Hz).
      rewrite (unlearn_mem_zero it2 s (negb b) bg o2 Hbg2) by (destruct b; simpl; lia).
      simpl. unfold swapped. simpl. done.
    + destruct (unlearn_mem_pos it1 Hit1 s b bg o1 Hbg) as (m1&->&L1); [lia|].
      destruct (unlearn_mem_pos it2 Hit2 s (negb b) bg o2 Hbg2) as (m2&->&L2);
        [destruct b; simpl; lia|]. simpl.
      unfold swapped. simpl. rewrite N1, N2. split_and!; [done|by destruct b..|].
      intros w. rewrite L1, L2, L. destruct (bool_decide _); [|done]. apply unbump_swap.
  - pose proof (untouched_spamprob_evidence it1 s o1) as U1. pose proof (untouched_spamprob_evidence it2 s o2) as U2.
    destruct (spamprob_evidence mem_backend it1 s o1), (spamprob_evidence mem_backend it2 s o2).
    simpl in *. by eapply swapped_train.
Qed.

Lemma run_swap {A : num} it1 it2 h : set_order_ok it1 -> set_order_ok it2 ->
  forall (o1 o2 : obj A (gmap pyword winfo)) bg, o_bigrams o1 = Some bg -> swapped o1 o2 ->
  swapped (fst (run mem_backend it1 h o1)) (fst (run mem_backend it2 (opposite <$> h) o2)).
Proof.
  intros Hit1 Hit2. induction h as [|c h IH]; intros o1 o2 bg Hbg Hs; [done|].
  rewrite fmap_cons. cbn [run].
  pose proof (run_call_swap it1 it2 c o1 o2 bg Hit1 Hit2 Hbg Hs) as Hs'.
  pose proof (run_call_bigrams it1 Hit1 c o1) as Hb.
  destruct (run_call mem_backend it1 c o1) as [o1' r1].
  destruct (run_call mem_backend it2 (opposite c) o2) as [o2' r2]. simpl in *.
  rewrite Hbg in Hb. specialize (IH o1' o2' bg Hb Hs').
  destruct (run mem_backend it1 h o1'), (run mem_backend it2 _ o2'). done.
Qed.

Section mirror.
  Notation mobj := (obj exact (gmap pyword winfo)).
  Notation words cs := (@fmap list _ (clue exact) pyword c_word cs).
  Notation probs cs := (@fmap list _ (clue exact) R c_prob cs).

  Lemma swapped_probability (o1 o2 : mobj) w : counts_ok o1 -> swapped o1 o2 ->
    forall q, spam_probability o1 w = Ok q -> spam_probability o2 w = Ok (1 - q).
  Proof.
    intros Hok (_&N1&N2&L) q Hq. destruct (o_store o1 !! w) as [r|] eqn:E.
    - destruct (spam_probability_robinson o1 w r Hok E q Hq) as [Hc ->].
      unfold spam_probability. rewrite L, E, N1, N2. simpl.
      rewrite prob_formula_exact by (by apply consistent_swap). simpl.
      by rewrite robinson_swap.
    - unfold spam_probability in *. rewrite L, E. rewrite E in Hq. simpl. injection Hq as <-.
      f_equal. simpl. lra.
  Qed.

  Lemma swapped_sym (o1 o2 : mobj) : swapped o1 o2 -> swapped o2 o1.
  Proof.
    intros (B&N1&N2&L). unfold swapped. split_and!; try done. intros w. rewrite L.
    by destruct (o_store o1 !! w) as [[]|].
  Qed.

  Lemma swapped_counts (o1 o2 : mobj) : swapped o1 o2 -> counts_ok o1 -> counts_ok o2.
  Proof.
    intros (B&N1&N2&L) (H1&H2&H3). unfold counts_ok. rewrite N1, N2. split_and!; [done|done|].
    intros w r. rewrite L. destruct (o_store o1 !! w) as [r1|] eqn:E; simpl; [|done].
    intros [= <-]. simpl. apply H3 in E. tauto.
  Qed.

  Lemma strong_mirror (q : R) : strong (A:=exact) (1 - q) = strong (A:=exact) q.
  Proof.
    unfold strong, strength, nge. cbn [nabs nsub nQ nlt exact rnum].
    replace (1 - q - 1 / 2) with (- (q - 1 / 2)) by lra. by rewrite Rabs_Ropp.
  Qed.

  (** All strong words are used when there are at most 150. *)
  Lemma few_all_used it (o : mobj) ws (cs : list (clue exact)) :
    set_order_ok it -> few_strong_words o ws ->
    pclues_uni it (mlook (o_store o)) (o_nspam o) (o_nham o) ws = Ok cs ->
    forall w, w ∈ c_word <$> cs <->
      w ∈ ws /\ exists q, spam_probability o w = Ok q /\ strong q = true.
  Proof.
    intros Hit (l&Hl&Hall) Ec w.
    destruct (pclues_uni_spec Hex _ _ _ it ws cs Hit Ec) as (C1&C2&C3&C4&C5).
    assert (forall w, w ∈ c_word <$> cs -> w ∈ ws /\ exists q, spam_probability o w = Ok q /\ strong q = true) as H1.
    { intros w' (c&->&Hc)%elem_of_list_fmap. destruct (C4 c Hc) as (D1&D2&D3). split; [done|].
      apply word_clue_Ok in D2 as (_&_&D4&D5). exists (c_prob c). split; [done|].
      unfold significant in D3. by rewrite D5 in D3. }
    split; [apply H1|]. intros (Hw&q&Hq&Hs).
    destruct (decide (w ∈ c_word <$> cs)) as [?|Hnot]; [done|]. exfalso.
    pose proof (word_clue_total (mlook (o_store o)) _ _ w q Hq) as Hc.
    set (c := Clue _ q w _) in Hc.
    destruct (C5 c) as [L1 _]; [done|done|done|done|].
    assert (NoDup (w :: (c_word <$> cs))) as Hnd by by constructor.
    assert (w :: (c_word <$> cs) ⊆+ l) as Hsub.
    { apply NoDup_submseteq; [done|]. intros x [->|Hx]%elem_of_cons; [by eapply Hall|].
      apply H1 in Hx as (Hx1&q'&Hx2&Hx3). by eapply Hall. }
    apply submseteq_length in Hsub. simpl in Hsub. rewrite fmap_length, L1 in Hsub.
    unfold MAX_DISCRIMINATORS in Hsub. lia.
  Qed.

  Lemma clue_probs (o : mobj) it ws (cs : list (clue exact)) : set_order_ok it ->
    pclues_uni it (mlook (o_store o)) (o_nspam o) (o_nham o) ws = Ok cs ->
    forall f : pyword -> R, (forall w q, spam_probability o w = Ok q -> f w = q) ->
    probs cs = fmap (M:=list) f (words cs).
  Proof.
    intros Hit Ec f Hf. rewrite <- list_fmap_compose. apply list_fmap_ext. intros i c Hc.
    apply elem_of_list_lookup_2 in Hc.
    destruct (pclues_uni_spec Hex _ _ _ it ws cs Hit Ec) as (_&_&_&C4&_).
    destruct (C4 c Hc) as (_&D2&_). apply word_clue_Ok in D2 as (_&_&D4&_).
    symmetry. by apply Hf.
  Qed.

  Lemma pclues_mirror it1 it2 (o1 o2 : mobj) ws (cs1 : list (clue exact)) :
    set_order_ok it1 -> set_order_ok it2 -> counts_ok o1 -> swapped o1 o2 ->
    few_strong_words o1 ws ->
    pclues_uni it1 (mlook (o_store o1)) (o_nspam o1) (o_nham o1) ws = Ok cs1 ->
    exists cs2 : list (clue exact),
      pclues_uni it2 (mlook (o_store o2)) (o_nspam o2) (o_nham o2) ws = Ok cs2 /\
      words cs2 ≡ₚ words cs1 /\ probs cs2 ≡ₚ fmap (M:=list) (fun p : R => 1 - p) (probs cs1).
  Proof.
    intros Hit1 Hit2 Hok Hsw Hfew E1.
    assert (forall w, w ∈ ws -> exists q, spam_probability o1 w = Ok q) as Hall.
    { intros w Hw. unfold pclues_uni in E1.
      destruct (rmap _ (it1 ws)) as [tups|] eqn:Et; simpl in E1; [|done].
      pose proof (rmap_clue_words _ _ _ _ _ Et) as Hws.
      assert (w ∈ c_word <$> tups) as Hin by (rewrite Hws; by apply (proj2 (Hit1 ws))).
      apply elem_of_list_fmap in Hin as (c&->&Hc).
      apply (rmap_clue_elem _ _ _ _ _ c Et) in Hc as [_ Hc].
      apply word_clue_Ok in Hc as (_&_&Hc&_). eauto. }
    pose proof (swapped_counts _ _ Hsw Hok) as Hok2.
    assert (forall w q, spam_probability o2 w = Ok q -> spam_probability o1 w = Ok (1 - q)) as Hback.
    { intros w q. by apply swapped_probability, swapped_sym. }
    assert (exists cs2, pclues_uni (A:=exact) it2 (mlook (o_store o2)) (o_nspam o2) (o_nham o2) ws = Ok cs2)
      as [cs2 E2].
    { destruct (pclues_uni_TypeError Hex (mlook (o_store o2)) (o_nspam o2) (o_nham o2) it2 ws Hit2)
        as [T1 T2].
      { intros w Hw. destruct (Hall w Hw) as [q Hq]. exists (1 - q).
        by apply (swapped_probability o1 o2). }
      destruct (pclues_uni it2 _ _ _ _) as [cs2|e] eqn:E2; [eauto|]. exfalso.
      rewrite (T2 e eq_refl) in T1.
      destruct (proj1 T1 eq_refl) as (w1&w2&q1&q2&W1&W2&Hk&Q1&Q2&<-&Hs).
      destruct (pclues_uni_TypeError Hex (mlook (o_store o1)) (o_nspam o1) (o_nham o1) it1 ws Hit1 Hall)
        as [T3 _].
      assert (pclues_uni (A:=exact) it1 (mlook (o_store o1)) (o_nspam o1) (o_nham o1) ws = Err TypeError) as E3; [|congruence].
      apply T3. exists w1, w2, (1 - q1), (1 - q1). split_and!; try done; try by apply Hback.
      by rewrite strong_mirror. }
    exists cs2. split; [done|].
    assert (few_strong_words o2 ws) as Hfew2.
    { destruct Hfew as (l&Hl&Hin). exists l. split; [done|]. intros w q Hw Hq Hs.
      apply (Hin w (1 - q)); [done|by apply Hback|by rewrite strong_mirror]. }
    pose proof (few_all_used it1 o1 ws cs1 Hit1 Hfew E1) as U1.
    pose proof (few_all_used it2 o2 ws cs2 Hit2 Hfew2 E2) as U2.
    destruct (pclues_uni_spec Hex _ _ _ it1 ws cs1 Hit1 E1) as (ND1&_).
    destruct (pclues_uni_spec Hex _ _ _ it2 ws cs2 Hit2 E2) as (ND2&_).
    assert ((c_word <$> cs2) ≡ₚ (c_word <$> cs1)) as HP.
    { apply NoDup_Permutation; [done|done|]. intros w. rewrite U1, U2. split; intros (Hw&q&Hq&Hs).
      - split; [done|]. exists (1 - q). split; [by apply Hback|by rewrite strong_mirror].
      - split; [done|]. exists (1 - q). split; [by apply (swapped_probability o1 o2)|by rewrite strong_mirror]. }
    split; [done|].
    set (f1 := fun w => match spam_probability o1 w with Ok q => q | Err _ => 0 end).
    rewrite (clue_probs o1 it1 ws cs1 Hit1 E1 f1) by (intros w q Hq; unfold f1; by rewrite Hq).
    rewrite (clue_probs o2 it2 ws cs2 Hit2 E2 (fun w => 1 - f1 w)).
    - rewrite HP. by rewrite <- !list_fmap_compose.
    - intros w q Hq. unfold f1. rewrite (Hback w q Hq). lra.
  Qed.

  (** C16 *)
  Lemma score_mirror it1 it2 h s p ev o' :
    set_order_ok it1 -> set_order_ok it2 ->
    let o1 := fst (run mem_backend it1 h (c_new false ∅ : mobj)) in
    let o2 := fst (run mem_backend it2 (opposite <$> h) (c_new false ∅ : mobj)) in
    few_strong_words o1 (elems s) ->
    spamprob_evidence mem_backend it1 s o1 = (o', Ok (p, ev)) ->
    exists o'' ev', spamprob_evidence mem_backend it2 s o2 = (o'', Ok (1 - p, ev')) /\
      drop 2 ev' ≡ₚ (fun x => (x.1, 1 - x.2)) <$> drop 2 ev /\
      (drop 2 ev <> [] -> exists H S,
         take 2 ev = [(WBytes (str "*H*"), H); (WBytes (str "*S*"), S)] /\
         take 2 ev' = [(WBytes (str "*H*"), S); (WBytes (str "*S*"), H)]).
  Proof.
    intros Hit1 Hit2 o1 o2 Hfew E.
    assert (mgood o1) as Hg1 by apply (reachable_good it1 Hit1).
    assert (mgood o2) as Hg2 by apply (reachable_good it2 Hit2).
    assert (counts_ok o1) as Hok by apply (reachable_wf it1 Hit1).
    assert (swapped o1 o2) as Hsw by (apply (run_swap it1 it2 h Hit1 Hit2 _ _ false); done).
    assert (o_bigrams o1 = Some false) as Hb1 by (unfold o1; by rewrite run_bigrams).
    assert (o_bigrams o2 = Some false) as Hb2 by (unfold o2; by rewrite run_bigrams).
    pose proof (score_evidence_inv it1 s o1 o' p ev Hg1 E) as (cs1&S&H&Ec&Es&->).
    rewrite Hb1 in Ec. simpl in Ec.
    destruct (pclues_mirror it1 it2 o1 o2 (elems s) cs1 Hit1 Hit2 Hok Hsw Hfew Ec)
      as (cs2&Ec2&HPw&HPp).
    assert (Forall (fun q => 0 < q < 1) (probs cs1)) as F1
      by exact (clues_strict it1 Hit1 o1 (Some false) _ cs1 Hok Ec).
    assert (Forall (fun q => 0 < q < 1) (probs cs2)) as F2
      by exact (clues_strict it2 Hit2 o2 (Some false) _ cs2 (swapped_counts _ _ Hsw Hok) Ec2).
    destruct (mem_score it2 s o2 Hg2) as (o''&->&_&_). exists o''.
    unfold pscore_evidence. rewrite Hb2. cbn [pclues]. rewrite Ec2. cbn [rbind].
    destruct (score_probs_total _ F1) as (p1&S1&H1&Es1&Hp1&Hi1).
    destruct (score_probs_total _ F2) as (p2&S2&H2&Es2&Hp2&Hi2).
    change (score_probs exact (@fmap list _ (clue exact) (F exact) c_prob cs1))
      with (score_probs exact (probs cs1)) in Es.
    rewrite Es1 in Es. apply Ok3_inj in Es as (->&->&->).
    change (score_probs exact (@fmap list _ (clue exact) (F exact) c_prob cs2))
      with (score_probs exact (probs cs2)).
 rewrite Es2. cbn [rbind].
    destruct (indicators_perm _ _ HPp) as (I1&I2&I3).
    destruct (indicators_mirror (probs cs1)) as (J1&J2&J3).
    exists (evidence_of exact cs2 S2 H2). split.
    { do 3 f_equal. rewrite Hp2, I3, J3, Hp1. done. }
    destruct (evidence_tail Hex cs1 S H) as (r1&->&R1&_).
    destruct (evidence_tail Hex cs2 S2 H2) as (r2&->&R2&_). simpl. rewrite !drop_0. split.
    - rewrite R1, R2. unfold ev_pairs. rewrite <- list_fmap_compose.
      set (f1 := fun w => match spam_probability o1 w with Ok q => q | Err _ => 0 end).
      assert ((fun c : clue exact => (c_word c, c_prob c)) <$> cs2 =
              (fun w => (w, 1 - f1 w)) <$> (c_word <$> cs2)) as ->.
      { rewrite <- list_fmap_compose. apply list_fmap_ext. intros i c Hc.
        apply elem_of_list_lookup_2 in Hc. unfold compose.
        pose proof (pclues_elem Hex it2 _ _ _ (Some false) _ _ _ Hit2 Ec2 Hc) as Hw.
        apply word_clue_Ok in Hw as (_&_&Hw&_). f_equal. unfold f1.
        rewrite (swapped_probability o2 o1 (c_word c) (swapped_counts _ _ Hsw Hok)
                   (swapped_sym _ _ Hsw) _ Hw). lra. }
      rewrite HPw. rewrite <- list_fmap_compose.
      match goal with |- ?l1 ≡ₚ ?l2 => assert (l1 = l2) as ->; [|done] end.
      apply list_fmap_ext. intros i c Hc.
      apply elem_of_list_lookup_2 in Hc. unfold compose. simpl.
      pose proof (pclues_elem Hex it1 _ _ _ (Some false) _ _ _ Hit1 Ec Hc) as Hw.
      apply word_clue_Ok in Hw as (_&_&Hw&_). f_equal. unfold f1.
      change (word_prob _ _ _ _) with (spam_probability o1 (c_word c)) in Hw. by rewrite Hw.
    - intros Hne. exists H, S. split; [done|].
      assert (cs1 <> []) as Hcs1.
      { intros ->. by apply Permutation_nil_r in R1. }
      assert (probs cs1 <> []) as Hc1 by by destruct cs1.
      assert (probs cs2 <> []) as Hc2.
      { intros Hn. rewrite Hn in HPp. apply Permutation_nil_l in HPp.
        symmetry in HPp. apply fmap_nil_inv in HPp. done. }
      destruct (Hi1 Hc1) as [-> ->]. destruct (Hi2 Hc2) as [-> ->].
      rewrite I1, I2, J1, J2. done.
  Qed.
End mirror.

(** ** What bigram training learns (C21) *)
Section bigram_training.
  Context {A : num} (it : set_order) (Hit : set_order_ok it).
  Notation mobj := (obj A (gmap pyword winfo)).

  Lemma fresh_learn s b : exists o', learn mem_backend it s b (c_new true ∅ : mobj) = (o', Ok tt) /\
    total_of b o' = 1%Z /\ forall w, is_Some (o_store o' !! w) <-> tokens_of true s w.
  Proof.
    destruct (learn_mem it Hit s b true (c_new true ∅ : mobj) eq_refl) as (m'&E&L).
    eexists. split; [exact E|]. split; [by destruct b|]. intros w. cbn [o_store]. rewrite L.
    rewrite <- toks_spec. destruct (bool_decide _) eqn:Hb.
    - apply bool_decide_eq_true in Hb. split; [done|]. eauto.
    - apply bool_decide_eq_false in Hb. simpl. rewrite lookup_empty. split; [by intros []|done].
  Qed.

  Lemma fresh_learn_list l x b : exists o',
    learn mem_backend it (SList (l ++ [x])) b (c_new true ∅ : mobj) = (o', Ok tt) /\
    forall w, is_Some (o_store o' !! w) <->
      w ∈ l \/ exists l1 y z l2, l ++ [x] = l1 ++ y :: z :: l2 /\ w = bigram y z.
  Proof.
    destruct (fresh_learn (SList (l ++ [x])) b) as (o'&E&_&L). exists o'. split; [done|].
    intros w. rewrite L. cbn [tokens_of]. rewrite app_length. cbn [length].
    split; intros [H|H].
    - left. destruct H as (i&y&Hy&Hi&->). rewrite lookup_app_l in Hy by lia.
      by eapply elem_of_list_lookup_2.
    - right. destruct H as (i&y&z&Hy&Hz&->).
      exists (take i (l ++ [x])), y, z, (drop (S (S i)) (l ++ [x])). split; [|done].
      rewrite <- (drop_S _ _ _ Hz), <- (drop_S _ _ _ Hy). by rewrite take_drop.
    - left. apply elem_of_list_lookup in H as [i Hi]. exists i, w. split_and!.
      + rewrite lookup_app_l; [done|]. by eapply lookup_lt_Some.
      + apply lookup_lt_Some in Hi. lia.
      + done.
    - right. destruct H as (l1&y&z&l2&El&->). exists (length l1), y, z. rewrite El. split_and!.
      + by rewrite list_lookup_middle.
      + replace (S (length l1)) with (length (l1 ++ [y])) by (rewrite app_length; simpl; lia).
        change (y :: z :: l2) with ([y] ++ z :: l2). rewrite (app_assoc l1 [y] (z :: l2)).
        by rewrite list_lookup_middle.
      + done.
  Qed.

  Lemma fresh_learn_single x b : exists o',
    learn mem_backend it (SList [x]) b (c_new true ∅ : mobj) = (o', Ok tt) /\
    total_of b o' = 1%Z /\ o_store o' = ∅.
  Proof.
    destruct (fresh_learn (SList [x]) b) as (o'&E&T&L). exists o'. split_and!; [done|done|].
    apply map_empty. intros w. apply eq_None_not_Some. rewrite L. cbn [tokens_of].
    intros [(i&y&_&Hi&_)|(i&y&z&Hy&Hz&_)]; [simpl in Hi; lia|].
    apply lookup_lt_Some in Hz. simpl in Hz. lia.
  Qed.

  Lemma fresh_learn_iter l b : exists o',
    learn mem_backend it (SIter l) b (c_new true ∅ : mobj) = (o', Ok tt) /\
    forall w, is_Some (o_store o' !! w) <->
      (exists x y z, l !! 0%nat = Some x /\ l !! 1%nat = Some y /\ l !! 3%nat = Some z /\ (w = x \/ w = bigram y z)) \/
      (exists k x y z, (0 < k)%nat /\ l !! (3 * k + 1)%nat = Some x /\ l !! (3 * k + 2)%nat = Some y /\
         l !! (3 * k + 3)%nat = Some z /\ (w = x \/ w = bigram y z)).
  Proof.
    destruct (fresh_learn (SIter l) b) as (o'&E&_&L). exists o'. split; [done|].
    intros w. rewrite L. cbn [tokens_of].
    split; (intros [H|(k&x&y&z&Hk&H)]; [by left|right; exists k, x, y, z; split; [lia|done]]).
  Qed.

  Lemma documented_refuted : exists l w b o',
    learn mem_backend it (SList l) b (c_new true ∅ : mobj) = (o', Ok tt) /\
    documented_tokens l w /\ o_store o' !! w = None.
  Proof.
    set (a := WStr (str "a")). destruct (fresh_learn_single a true) as (o'&E&_&Es).
    exists [a], a, true, o'. split_and!; [done|left; by left|]. by rewrite Es.
  Qed.
End bigram_training.

(** Two byte tokens learned with bigrams cannot be scored (C22). *)
Section bigram_bytes.
  Notation mobj := (obj exact (gmap pyword winfo)).

  Lemma exact_strong_half : strong (A:=exact) (nQ exact 1 2) = false.
  Proof.
    unfold strong, strength, nge. cbn [nabs nsub nQ nlt exact rnum].
    replace (1 / 2 - 1 / 2) with 0 by lra. rewrite Rabs_R0.
    destruct (rltb 0 (1 / 10)) eqn:E; [done|]. apply rltb_false in E. lra.
  Qed.

  Lemma exact_sane : sane exact.
  Proof.
    split; [apply exact_strong_half|]. simpl. destruct (rltb 0 1) eqn:E; [done|].
    apply rltb_false in E. lra.
  Qed.

  Lemma once_consistent : consistent 1 1 0 0.
  Proof. unfold consistent. simpl. lia. Qed.

  Lemma once_spam : prob_formula (A:=exact) 1 0 (WI 1 0) = Ok (robinson 1 1 0 0).
  Proof. by apply (prob_formula_exact 1 0 (WI 1 0)), once_consistent. Qed.

  Lemma once_strong : strong (A:=exact) (robinson 1 1 0 0) = true.
  Proof.
    assert (robinson 1 1 0 0 = 49 / 58) as ->.
    { assert (spam_share 1 1 0 0 = 1) as E.
      { unfold spam_share, fraction, nonempty_total. simpl. field. }
      unfold robinson. cbv zeta. rewrite E. change (0 + 1)%Z with 1%Z. field. }
    unfold strong, strength, nge. cbn [nabs nsub nQ nlt exact rnum].
    rewrite Rabs_pos_eq by lra.
    destruct (rltb (49 / 58 - 1 / 2) (1 / 10)) eqn:E; [|done]. apply rltb_true in E. lra.
  Qed.

  Lemma bigram_bytes_TypeError it b1 b2 : set_order_ok it ->
    let s := SList [WBytes b1; WBytes b2] in
    snd (spamprob_evidence mem_backend it s
           (fst (run mem_backend it [CLearn s true] (c_new true ∅ : mobj)))) = Err TypeError.
  Proof.
    intros Hit s.
    destruct (learn_mem it Hit s true true (c_new true ∅ : mobj) eq_refl) as (m'&E&L).
    set (o := fst _).
    assert (o = Obj (Some true) 1 0 ∅ m') as Eo.
    { unfold o. cbn [run run_call]. rewrite E. done. }
    assert (toks true s = [WBytes b1; bigram (WBytes b1) (WBytes b2)]) as Et by done.
    assert (forall w, o_store o !! w = if bool_decide (w ∈ toks true s) then Some (WI 1 0) else None) as Lo.
    { intros w. rewrite Eo. cbn [o_store]. rewrite L. destruct (bool_decide _); simpl; rewrite lookup_empty; done. }
    assert (forall w, w ∈ toks true s -> spam_probability o w = Ok (robinson 1 1 0 0)) as Hp.
    { intros w Hw. unfold spam_probability. rewrite Lo, bool_decide_eq_true_2 by done.
      rewrite Eo. cbn [o_nspam o_nham]. apply once_spam. }
    apply (type_error Hex it Hit true [CLearn s true] s).
    - apply exact_strong_half.
    - fold o. rewrite Lo, bool_decide_eq_false_2; [done|]. rewrite Et.
      rewrite !elem_of_cons, elem_of_nil. intros [?|[?|[]]]; done.
    - fold o. intros w _. unfold spam_probability. rewrite Lo.
      destruct (bool_decide _); [|eauto]. rewrite Eo. cbn [o_nspam o_nham]. eauto using once_spam.
    - fold o. exists (WBytes b1), (bigram (WBytes b1) (WBytes b2)), (robinson 1 1 0 0).
      split_and!.
      + exists [0%Z]. left. exists 0%nat. done.
      + exists [0%Z; 1%Z]. right. exists 0%nat, (WBytes b1), (WBytes b2). done.
      + done.
      + apply Hp. rewrite Et. left.
      + apply Hp. rewrite Et. right. left.
      + apply once_strong.
  Qed.
End bigram_bytes.

(** ** The probability method on a reachable classifier (C09) *)
Lemma mem_probability {A : num} it bg h r : set_order_ok it ->
  let o := fst (run mem_backend it h (c_new bg ∅ : obj A (gmap pyword winfo))) in
  snd (probability r o) = prob_formula (o_nspam o) (o_nham o) r.
Proof.
  intros Hit o. assert (mgood o) as Hg by apply (reachable_good it Hit).
  destruct (probability_computes (fun _ => True) mlook r o (conj I Hg)) as (o'&->&_). done.
Qed.

Lemma probability_exact it bg h r : set_order_ok it ->
  let o := fst (run mem_backend it h (c_new bg ∅ : obj exact (gmap pyword winfo))) in
  consistent (spamcount r) (o_nspam o) (hamcount r) (o_nham o) ->
  snd (probability r o) = Ok (robinson (spamcount r) (o_nspam o) (hamcount r) (o_nham o)).
Proof. intros Hit o Hc. unfold o. rewrite mem_probability by done. by apply prob_formula_exact. Qed.

Lemma probability_range rnd it bg h r p : rounding rnd -> set_order_ok it ->
  let o := fst (run mem_backend it h (c_new bg ∅ : obj (rnum rnd) (gmap pyword winfo))) in
  (0 <= spamcount r)%Z -> (0 <= hamcount r)%Z -> (spamcount r <> 0 \/ hamcount r <> 0)%Z ->
  snd (probability r o) = Ok p -> 0 <= p <= 1.
Proof.
  intros Hr Hit o H1 H2 H3. unfold o. rewrite mem_probability by done.
  by apply prob_formula_range.
Qed.

Lemma b64_sane : sane (rnum b64).
Proof.
  pose proof rounding_b64 as Hr. split.
  - unfold strong, strength, nge. cbn [nabs nsub nQ nlt rnum].
    rewrite (rnd_half b64 Hr). replace (1 / 2 - 1 / 2) with 0 by lra.
    rewrite (rnd_0 b64 Hr), Rabs_R0.
    assert (b64 (1 / 16) = 1 / 16) as E16.
    { unfold b64. apply round_generic; [apply valid_rnd_N|].
      apply generic_format_FLT. apply (FLT_spec _ _ _ _ (Float radix2 1 (-4))).
      + unfold F2R. simpl. lra.
      + cbn [Fnum]. change (Zpower radix2 53) with (2 ^ 53)%Z. lia.
      + cbn [Fexp]. lia. }
    assert (b64 (1 / 16) <= b64 (1 / 10)) by (apply (rnd_mono b64 Hr); lra).
    destruct (rltb 0 (b64 (1 / 10))) eqn:E; [done|]. apply rltb_false in E. lra.
  - cbn [nlt nZ rnum]. rewrite (rnd_0 b64 Hr), (rnd_1 b64 Hr).
    destruct (rltb 0 1) eqn:E; [done|]. apply rltb_false in E. lra.
Qed.

(** ** Forms used by the property files *)
Lemma more_spam sc ns hc nh :
  consistent sc ns hc nh -> consistent (sc + 1) ns hc nh ->
  nonempty_total ns <= 11 * nonempty_total nh \/ fraction hc nh <= fraction sc ns ->
  robinson sc ns hc nh <= robinson (sc + 1) ns hc nh.
Proof. intros H1 H2 [H|H]; [by apply robinson_more_spam|by apply robinson_more_spam_spammy]. Qed.

Lemma more_ham sc ns hc nh :
  consistent sc ns hc nh -> consistent sc ns (hc + 1) nh ->
  nonempty_total nh <= 11 * nonempty_total ns \/ fraction sc ns <= fraction hc nh ->
  robinson sc ns (hc + 1) nh <= robinson sc ns hc nh.
Proof. intros H1 H2 [H|H]; [by apply robinson_more_ham|by apply robinson_more_ham_hammy]. Qed.

Lemma chi_tail_facts k m : 0 <= m ->
  (0 < chi_tail (S k) m <= 1) /\ chi_tail (S k) 0 = 1 /\
  (forall m', m <= m' -> chi_tail (S k) m' <= chi_tail (S k) m) /\
  (forall j, (k <= j)%nat -> chi_tail (S k) m <= chi_tail (S j) m).
Proof.
  intros H. split; [by apply chi_tail_range|]. split; [apply chi_tail_0|]. split.
  - intros m' Hm. by apply chi_tail_antitone.
  - intros j Hj. apply chi_tail_mono_k; [done|lia].
Qed.

Lemma unmatched_raises (A : num) : exists (h : list call) (s : stream) (e : exn),
  one_type false (elems s) /\
  snd (spamprob_evidence mem_backend remove_dups s
         (fst (run mem_backend remove_dups h (c_new false ∅ : obj A (gmap pyword winfo))))) = Err e.
Proof.
  set (a := SList [WStr (str "a")]). set (b := SList [WStr (str "b")]).
  exists [CLearn a true; CLearn a true; CUnlearn b true], a, Exception2. split; [|reflexivity].
  intros w1 w2. simpl. rewrite !elem_of_list_singleton. by intros -> ->.
Qed.

Lemma remove_dups_ok : set_order_ok remove_dups.
Proof. split; [apply NoDup_remove_dups|]. intros w. apply elem_of_remove_dups. Qed.

Lemma no_clues_score {A : num} it bg h s : total_num A -> set_order_ok it -> sane A ->
  let o := fst (run mem_backend it h (c_new bg ∅ : obj A (gmap pyword winfo))) in
  o_store o !! WNone = None ->
  (forall w, candidate bg (elems s) w ->
     exists q, spam_probability o w = Ok q /\ strong q = false) ->
  exists o' H S, spamprob_evidence mem_backend it s o =
    (o', Ok (nQ A 1 2, [(WBytes (str "*H*"), H); (WBytes (str "*S*"), S)])).
Proof. intros HA Hit Hs o H1 H2. by apply (no_clues HA it Hit bg h s). Qed.

Lemma untrained_score {A : num} it bg s : total_num A -> set_order_ok it -> sane A ->
  exists o', spamprob mem_backend it s (c_new bg ∅ : obj A (gmap pyword winfo)) = (o', Ok (nQ A 1 2)).
Proof.
  intros HA Hit Hs.
  destruct (no_clues_score it bg [] s HA Hit Hs) as (o'&H&S&E).
  - simpl. apply lookup_empty.
  - intros w _. exists (nQ A 1 2). unfold spam_probability. simpl. rewrite lookup_empty.
    split; [done|]. apply Hs.
  - pose proof (evidence_same_score it Hit bg [] s (A:=A)) as Hsame. cbv zeta in Hsame.
    rewrite E in Hsame. simpl in Hsame.
    destruct (spamprob mem_backend it s (c_new bg ∅ : obj A (gmap pyword winfo))) as [o2 r].
    simpl in Hsame. subst r. eauto.
Qed.

Lemma one_clue_case : exists o' p ev,
  spamprob_evidence mem_backend remove_dups (SList [WStr (str "a")])
    (fst (run mem_backend remove_dups [CLearn (SList [WStr (str "a")]) true]
            (c_new false ∅ : obj exact (gmap pyword winfo)))) = (o', Ok (p, ev)) /\ length ev = 3%nat.
Proof.
  set (a := WStr (str "a")).
  assert (matched false [CLearn (SList [a]) true] [([a], true)]) as Hm.
  { apply (matched_learn false [] [] (SList [a]) true [a]); [constructor|done]. }
  destruct (score_returns false _ _ remove_dups (SList [a]) remove_dups_ok Hm) as (o'&p&ev&E).
  { repeat constructor. simpl. by intros ?%elem_of_list_singleton. }
  { intros w1 w2. simpl. rewrite !elem_of_list_singleton. by intros -> ->. }
  exists o', p, ev. split; [done|].
  destruct (clues_uni Hex remove_dups remove_dups_ok _ _ _ _ _ E) as (evH&evS&used&->&Nd&_&Hin&Hout).
  set (o := fst _) in *.
  assert (spam_probability o a = Ok (robinson 1 1 0 0)) as Hp.
  { pose proof once_spam as H. unfold o. exact H. }
  assert (a ∈ used.*1) as Ha.
  { destruct (decide (a ∈ used.*1)) as [?|Hn]; [done|].
    destruct (Hout a (robinson 1 1 0 0)) as [Hs|[Hl _]]; [left|done|done| |].
    - rewrite once_strong in Hs. done.
    - exfalso. destruct used as [|[w1 q1] [|[w2 q2] used]]; simpl in Hl; [lia|lia|].
      destruct (Hin w1 q1) as [H1 _]; [left|]. destruct (Hin w2 q2) as [H2 _]; [right; left|].
      simpl in H1, H2. apply elem_of_list_singleton in H1, H2. subst.
      apply NoDup_cons in Nd as [Hnd _]. apply Hnd. left. }
  destruct used as [|[w1 q1] [|[w2 q2] used]]; [by apply elem_of_nil in Ha|done|].
  exfalso. destruct (Hin w1 q1) as [H1 _]; [left|]. destruct (Hin w2 q2) as [H2 _]; [right; left|].
  simpl in H1, H2. apply elem_of_list_singleton in H1, H2. subst.
  apply NoDup_cons in Nd as [Hnd _]. apply Hnd. left.
Qed.

Lemma bigram_case :
  let s := SList [WStr (str "a"); WStr (str "b")] in
  let o := fst (run mem_backend remove_dups [CLearn s true] (c_new true ∅ : obj exact (gmap pyword winfo))) in
  o_store o !! WNone = None /\ exists o' p ev,
    spamprob_evidence mem_backend remove_dups s o = (o', Ok (p, ev)).
Proof.
  set (s := SList [WStr (str "a"); WStr (str "b")]).
  assert (matched true [CLearn s true] [(toks true s, true)]) as Hm.
  { apply (matched_learn true [] [] s true (toks true s)); [constructor|]. intros w. apply toks_spec. }
  assert (Forall (fun m : message => WNone ∉ m.1) [(toks true s, true)]) as Hn.
  { repeat constructor. simpl. rewrite !elem_of_cons, elem_of_nil. intros [?|[?|[]]]; done. }
  cbv zeta. split; [by apply (matched_no_none _ _ _ _ remove_dups_ok Hm)|].
  apply (score_returns true _ _ _ s remove_dups_ok Hm Hn).
  intros w. simpl. rewrite !elem_of_cons, elem_of_nil. intros [->|[->|[]]]; eauto.
Qed.
