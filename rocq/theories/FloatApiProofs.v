(** * Scoring in double precision for reachable classifiers *)
From Coq Require Import Reals Lra Lia String.
From Flocq Require Import Core.
From Verif Require Import Py NumModel ClassifierModel TrainSpec TrainProofs ScoreProofs
  SortProofs ScoreSpec ClueProofs TileProofs RealModel RealSpec RealProofs ExactProofs ApiProofs
  FloatProofs.
Local Open Scope R_scope.

Notation D := (mnum _).
Notation dobj := (obj D (gmap pyword winfo)).

(** ** Counts do not exceed the number of calls *)
Definition size_le {A : num} (N : Z) (o : obj A (gmap pyword winfo)) : Prop :=
  (o_nspam o + o_nham o <= N)%Z /\
  forall w r, o_store o !! w = Some r -> (hamcount r + spamcount r <= N)%Z.

Section sizes.
  Context {A : num} (it : set_order) (Hit : set_order_ok it).
  Notation mobj := (obj A (gmap pyword winfo)).

  Lemma unbump_opt_size b r r' : unbump_opt b r = Some r' ->
    exists r0, r = Some r0 /\ (hamcount r' + spamcount r' <= hamcount r0 + spamcount r0)%Z.
  Proof.
    destruct r as [r|]; [|done]. simpl. destruct (is_zero (unbump b r)); [done|]. intros [= <-].
    exists r. split; [done|]. unfold unbump.
    destruct b; [destruct (0 <? spamcount r)%Z|destruct (0 <? hamcount r)%Z]; simpl; lia.
  Qed.

  Lemma run_call_size N c (o : mobj) : size_le N o -> (0 <= N)%Z ->
    size_le (N + 1) (fst (run_call mem_backend it c o)).
  Proof.
    intros (H1&H3) HN.
    assert (size_le (N + 1) o) as Hw.
    { split; [lia|]. intros w r Hr. specialize (H3 w r Hr). lia. }
    destruct c as [s b|s b|s]; simpl.
    - destruct (o_bigrams o) as [bg|] eqn:Hbg.
      2:{ unfold learn. by rewrite Hbg. }
      destruct (learn_mem it Hit s b bg o Hbg) as (m'&->&Hl). simpl.
      split; simpl; [destruct b; lia|]. intros w r. rewrite Hl.
      destruct (bool_decide _); [|intros Hr; specialize (H3 w r Hr); lia]. intros [= <-].
      destruct (o_store o !! w) as [r0|] eqn:Hr; simpl.
      + specialize (H3 w r0 Hr). destruct b; simpl; lia.
      + destruct b; simpl; lia.
    - destruct (o_bigrams o) as [bg|] eqn:Hbg.
      2:{ unfold unlearn. by rewrite Hbg. }
      destruct (Z.le_gt_cases (if b then o_nspam o else o_nham o) 0) as [Hz|Hp].
      + by rewrite (unlearn_mem_zero it s b bg o).
      + destruct (unlearn_mem_pos it Hit s b bg o Hbg Hp) as (m'&->&Hl). simpl.
        split; simpl; [destruct b; lia|]. intros w r. rewrite Hl.
        destruct (bool_decide _); [|intros Hr; specialize (H3 w r Hr); lia].
        intros (r0&Hr&Hle)%unbump_opt_size. specialize (H3 w r0 Hr). lia.
    - pose proof (untouched_spamprob_evidence it s o) as (U1&U2&U3&U4).
      destruct (spamprob_evidence mem_backend it s o) as [o' x]; simpl in *.
      unfold size_le. rewrite U1, U2, U3. exact Hw.
  Qed.

  Lemma run_size h : forall N (o : mobj), size_le N o -> (0 <= N)%Z ->
    size_le (N + Z.of_nat (length h)) (fst (run mem_backend it h o)).
  Proof.
    induction h as [|c h IH]; intros N o Ho HN; simpl.
    { by rewrite Z.add_0_r. }
    pose proof (run_call_size N c o Ho HN) as H1.
    destruct (run_call mem_backend it c o) as [o' r]; simpl in *.
    specialize (IH (N + 1)%Z o' H1 ltac:(lia)).
    destruct (run mem_backend it h o'); simpl in *.
    replace (N + Z.of_nat (S (length h)))%Z with (N + 1 + Z.of_nat (length h))%Z by lia. done.
  Qed.

  Lemma reachable_size bg h : size_le (Z.of_nat (length h)) (fst (run mem_backend it h (c_new bg ∅ : mobj))).
  Proof.
    apply (run_size h 0%Z); [|lia]. split; simpl; [lia|]. intros w r. by rewrite lookup_empty.
  Qed.
End sizes.

Lemma mnum_sane {M : machine} : sane D.
Proof.
  split.
  - unfold strong, strength, nge. cbn [nabs nsub nQ nlt mnum].
    rewrite mhalf. replace (1 / 2 - 1 / 2) with 0 by lra.
    rewrite (mZ 0), Rabs_R0 by done. rewrite (mb (1 / 10) 1) by (first [apply Rabs_le; lra | simpl; lra]).
    assert (bpow radix2 (-4) <= b64 (1 / 10)) as H by (apply b64_ge_bpow; [lia|simpl; lra]).
    destruct (rltb 0 (b64 (1 / 10))) eqn:E; [done|]. apply rltb_false in E.
    pose proof (bpow_gt_0 radix2 (-4)). lra.
  - cbn [nlt nZ mnum]. rewrite (mZ 0), (mZ 1) by done.
    destruct (rltb 0 1) eqn:E; [done|]. apply rltb_false in E. lra.
Qed.

(** ** Probabilities of words *)
Section float.
  Context {M : machine} (it : set_order) (Hit : set_order_ok it).

  Lemma near9 p r : near 9 p r -> Rabs (p - r) <= 2 / 10 ^ 15 * r.
  Proof.
    intros H. assert (0 <= r) as H0 by apply H.
    apply Rle_trans with (2 * INR 9 * u * r).
    - apply near_abs; [|done]. rewrite u_val. simpl. lra.
    - apply Rmult_le_compat_r; [done|]. rewrite u_val.
      replace (10 ^ 15) with 1000000000000000 by (simpl; ring). simpl. lra.
  Qed.

  Definition bounded (h : list call) : Prop := (Z.of_nat (length h) < 2 ^ 48)%Z.

  Lemma spam_probability_b64 bg h w q : bounded h ->
    let o := fst (run mem_backend it h (c_new bg ∅ : dobj)) in
    spam_probability o w = Ok q -> u <= q <= 1 - u /\
    (forall r, o_store o !! w = Some r ->
       near 9 q (robinson (spamcount r) (o_nspam o) (hamcount r) (o_nham o))).
  Proof.
    intros Hb o. assert (counts_ok o) as (N1&N2&Hw) by apply (reachable_wf it Hit).
    pose proof (reachable_size (A := D) it Hit bg h) as (S1&S3). fold o in S1, S3.
    unfold spam_probability. destruct (o_store o !! w) as [r|] eqn:E.
    - intros Hq. destruct (Hw w r E) as (H1&H2&H3). specialize (S3 w r E).
      pose proof (prob_formula_consistent _ _ r q N1 N2 H1 H2 H3 Hq) as Hc.
      unfold bounded in Hb.
      destruct (prob_mach _ _ _ Hc) as (p&Ep&Rp&Np); [unfold few; lia..|].
      rewrite Ep in Hq. injection Hq as <-. split; [done|]. by intros r' [= <-].
    - intros [= <-]. cbn [nQ mnum]. rewrite mhalf. split; [|done].
      rewrite u_val. lra.
  Qed.

  Lemma clues_b64 bg h ws (cs : list (clue D)) : bounded h ->
    let o := fst (run mem_backend it h (c_new bg ∅ : dobj)) in
    pclues it (mlook (o_store o)) (o_nspam o) (o_nham o) (o_bigrams o) ws = Ok cs ->
    Forall (fun q => u <= q <= 1 - u) (c_prob <$> cs).
  Proof.
    intros Hb o Ec. apply Forall_fmap, Forall_forall. intros c Hc.
    pose proof (pclues_elem mnum_total it _ _ _ _ _ _ _ Hit Ec Hc) as Hw.
    apply word_clue_Ok in Hw as (_&_&Hq&_). by apply (spam_probability_b64 bg h) in Hq as [Hq _].
  Qed.

  Lemma pclues_length lk ns nh bg ws (cs : list (clue D)) :
    pclues it lk ns nh bg ws = Ok cs -> (length cs <= 150)%nat.
  Proof.
    destruct bg as [[]|]; simpl; [| |done].
    - unfold pclues_bi. destruct (pbigram_raw _ _ _ _ _ _ _ _) as [acc|e]; simpl; [|done].
      unfold sort_raw_reverse. destruct (any_clash _); simpl; [done|]. intros [= <-]. apply strongest_length.
    - intros E. by destruct (pclues_uni_spec mnum_total lk ns nh it ws cs Hit E) as (_&Hl&_).
  Qed.

  Lemma pclues_significant lk ns nh bg ws (cs : list (clue D)) c :
    pclues it lk ns nh bg ws = Ok cs -> c ∈ cs -> significant c = true.
  Proof.
    destruct bg as [[]|]; simpl; [| |done].
    - unfold pclues_bi.
      destruct (pbigram_raw lk ns nh 0 WNone WNone ws (∅, [])) as [acc|e] eqn:Er; simpl; [|done].
      destruct (occurs_seen mnum_total lk ns nh ws acc Er) as ([I1 I2 I3 I4]&_).
      unfold sort_raw_reverse. destruct (any_clash _); simpl; [done|]. intros [= <-].
      intros Hc%strongest_elem. rewrite elem_of_reverse in Hc.
      apply elem_of_list_fmap in Hc as (x&->&Hx). apply tile_elem in Hx.
      rewrite elem_of_reverse in Hx. rewrite isort_Permutation in Hx. by apply I3.
    - intros E Hc. destruct (pclues_uni_spec mnum_total lk ns nh it ws cs Hit E) as (_&_&_&H&_).
      by apply H.
  Qed.

  (** The method *)
  Lemma probability_b64 bg h r : bounded h ->
    let o := fst (run mem_backend it h (c_new bg ∅ : dobj)) in
    consistent (spamcount r) (o_nspam o) (hamcount r) (o_nham o) ->
    exists p, snd (probability r o) = Ok p /\
      Rabs (p - robinson (spamcount r) (o_nspam o) (hamcount r) (o_nham o))
      <= 2 / 10 ^ 15 * robinson (spamcount r) (o_nspam o) (hamcount r) (o_nham o) /\
      0 < p < 1.
  Proof.
    intros Hb o Hc. pose proof (reachable_size (A := D) it Hit bg h) as (S1&_). fold o in S1.
    unfold bounded in Hb. assert (consistent (spamcount r) (o_nspam o) (hamcount r) (o_nham o)) as Hc' by done.
    destruct Hc' as (C1&C2&C3&C4&C5&C6&C7).
    destruct (prob_mach (o_nspam o) (o_nham o) r Hc) as (p&Ep&Rp&Np).
    { unfold few. lia. }
    { unfold few. lia. }
    { unfold few. destruct (Z.eqb_spec (o_nspam o) 0), (Z.eqb_spec (o_nham o) 0); lia. }
    exists p. split; [|split; [by apply near9|pose proof u_pos; lra]].
    unfold o. rewrite mem_probability by done. exact Ep.
  Qed.

  (** ** The score *)
  Lemma score_b64 bg h s p ev o' : bounded h ->
    let o := fst (run mem_backend it h (c_new bg ∅ : dobj)) in
    spamprob_evidence mem_backend it s o = (o', Ok (p, ev)) ->
    exists H S rest, ev = (WBytes (str "*H*"), H) :: (WBytes (str "*S*"), S) :: rest /\
      Forall (fun x => 0 < x.2 < 1) rest /\ (0 <= p <= 1 /\ 0 <= S <= 1 /\ 0 <= H <= 1) /\
      Rabs (p - combined_score (rest.*2)) <= 4 / 10 ^ 12 /\
      (rest <> [] -> Rabs (S - indicator_S (rest.*2)) <= 4 / 10 ^ 12 /\
                     Rabs (H - indicator_H (rest.*2)) <= 4 / 10 ^ 12).
  Proof.
    intros Hb o E. assert (mgood o) as Hg by apply (reachable_good it Hit).
    destruct (score_evidence_inv it s o o' p ev Hg E) as (cs&S&H&Ec&Es&->).
    pose proof (clues_b64 bg h _ _ Hb Ec) as Hps. pose proof (pclues_length _ _ _ _ _ _ Ec) as Hlen.
    destruct (score_probs_b64 (c_prob <$> cs) Hps) as (p'&S'&H'&Es'&HR&Hp&Hi); [by rewrite fmap_length|].
    rewrite Es' in Es. apply Ok3_inj in Es as (->&->&->).
    destruct (evidence_tail mnum_total cs S H) as (rest&->&HP&_).
    assert (rest.*2 ≡ₚ c_prob <$> cs) as HP2.
    { rewrite HP. unfold ev_pairs. by rewrite <- list_fmap_compose. }
    destruct (indicators_perm _ _ HP2) as (I1&I2&I3).
    exists H, S, rest. split; [done|]. split; [|split; [exact HR|split]].
    - rewrite HP. unfold ev_pairs. apply Forall_fmap. apply Forall_fmap in Hps.
      eapply Forall_impl; [exact Hps|]. simpl. intros c Hc. pose proof u_pos. lra.
    - by rewrite I3.
    - intros Hne. rewrite I1, I2. apply Hi. intros Hnil. apply Hne.
      apply fmap_nil_inv in Hnil as ->. by apply Permutation_nil_r in HP.
  Qed.
End float.

Lemma score_monotone_b64 {M : machine} it1 it2 bg1 bg2 h1 h2 s1 s2 p1 p2 ev1 ev2 (o1' o2' : dobj) :
  set_order_ok it1 -> set_order_ok it2 -> bounded h1 -> bounded h2 ->
  spamprob_evidence mem_backend it1 s1
    (fst (run mem_backend it1 h1 (c_new bg1 ∅ : dobj))) = (o1', Ok (p1, ev1)) ->
  spamprob_evidence mem_backend it2 s2
    (fst (run mem_backend it2 h2 (c_new bg2 ∅ : dobj))) = (o2', Ok (p2, ev2)) ->
  Forall2 (fun a b => a.2 <= b.2) (drop 2 ev1) (drop 2 ev2) ->
  p1 <= p2 + 8 / 10 ^ 12.
Proof.
  intros Hit1 Hit2 B1 B2 E1 E2 Hle.
  destruct (score_b64 it1 Hit1 bg1 h1 s1 p1 ev1 o1' B1 E1) as (H1&S1&r1&->&F1&_&C1&_).
  destruct (score_b64 it2 Hit2 bg2 h2 s2 p2 ev2 o2' B2 E2) as (H2&S2&r2&->&F2&_&C2&_).
  simpl in Hle. rewrite drop_0 in Hle. change (drop 0 r2) with r2 in Hle.
  assert (combined_score (r1.*2) <= combined_score (r2.*2)) as Hc.
  { apply combined_mono. clear -Hle F1 F2. induction Hle as [|a b r1 r2 Hab _ IH]; [constructor|].
    inversion F1; inversion F2; subst. rewrite !fmap_cons. constructor; [simpl in *; lra|auto]. }
  apply Rabs_le_inv in C1, C2. lra.
Qed.

(** ** Matched histories *)
Lemma containing_le b w ms : (0 <= containing b w ms <= total b ms)%Z.
Proof.
  induction ms as [|[ws b'] ms IH]; simpl; [lia|].
  destruct (eqb b b'); simpl; [|lia]. destruct (bool_decide _); lia.
Qed.

Lemma totals_length ms : (total true ms + total false ms = Z.of_nat (length ms))%Z.
Proof. induction ms as [|[ws b] ms IH]; simpl; [done|]. destruct b; simpl; lia. Qed.

Definition bounded_set (ms : list message) : Prop := (Z.of_nat (length ms) < 2 ^ 48)%Z.

Section matched.
  Context {M : machine} (it : set_order) (Hit : set_order_ok it) (bg : bool) (h : list call) (ms : list message)
    (Hm : matched bg h ms) (Hb : bounded_set ms).
  Let o : dobj := fst (run mem_backend it h (c_new bg ∅ : dobj)).

  Lemma matched_view : o_nspam o = total true ms /\ o_nham o = total false ms /\
    forall w, o_store o !! w = expected_record ms w.
  Proof.
    pose proof (matched_refines (A := D) it Hit bg h ms Hm) as Hr. unfold o.
    destruct (run mem_backend it h (c_new bg ∅ : dobj)) as [o' rs]. simpl in *.
    by destruct Hr as [(_&T1&T2&T3) _].
  Qed.

  Lemma matched_spam_probability w : exists q, spam_probability o w = Ok q /\ u <= q <= 1 - u /\
    ((0 < containing true w ms + containing false w ms)%Z ->
     near 9 q (robinson (containing true w ms) (total true ms) (containing false w ms) (total false ms))) /\
    ((containing true w ms + containing false w ms = 0)%Z -> q = 1 / 2).
  Proof.
    destruct matched_view as (T1&T2&T3). unfold spam_probability. rewrite T1, T2, T3.
    pose proof (containing_le true w ms) as C1. pose proof (containing_le false w ms) as C2.
    pose proof (totals_length ms) as Tl. unfold bounded_set in Hb. unfold expected_record.
    destruct ((containing true w ms =? 0)%Z && (containing false w ms =? 0)%Z) eqn:Ez.
    - apply andb_true_iff in Ez as [E1%Z.eqb_eq E2%Z.eqb_eq]. cbn [nQ mnum].
      exists (1 / 2). rewrite mhalf. split; [done|]. split; [rewrite u_val; lra|].
      split; [lia|done].
    - apply andb_false_iff in Ez.
      assert (containing true w ms <> 0 \/ containing false w ms <> 0)%Z as Hne.
      { destruct Ez as [E%Z.eqb_neq|E%Z.eqb_neq]; [by left|by right]. }
      set (r := WI (containing true w ms) (containing false w ms)).
      destruct (prob_mach (total true ms) (total false ms) r) as (p&Ep&Rp&Np).
      { unfold consistent, r. simpl.
        destruct (Z.eqb_spec (total true ms) 0), (Z.eqb_spec (total false ms) 0); lia. }
      { unfold few. lia. }
      { unfold few. lia. }
      { unfold few, r. simpl. lia. }
      exists p. split; [exact Ep|]. split; [done|]. split; [done|lia].
  Qed.

  Lemma score_returns_b64 s : Forall (fun m => WNone ∉ m.1) ms -> one_type bg (elems s) ->
    exists o' p ev, spamprob_evidence mem_backend it s o = (o', Ok (p, ev)).
  Proof.
    intros Hnone Hty.
    assert (mgood o) as Hg by apply (reachable_good it Hit).
    assert (o_bigrams o = Some bg) as Hbg by (unfold o; by rewrite run_bigrams).
    assert (forall w, exists q, spam_probability o w = Ok q) as Hq.
    { intros w. destruct (matched_spam_probability w) as (q&Eq&_). eauto. }
    assert (o_store o !! WNone = None) as Hn.
    { destruct matched_view as (_&_&T3). rewrite T3. unfold expected_record.
      assert (forall b, containing b WNone ms = 0%Z) as Hc.
      { intros b. clear -Hnone. induction Hnone as [|[ws b'] ms Hw _ IH]; simpl in *; [done|].
        rewrite bool_decide_eq_false_2 by done. rewrite andb_false_r. lia. }
      by rewrite !Hc. }
    assert (strong (A:=D) (nQ D 1 2) = false) as Hs0 by apply mnum_sane.
    destruct (mem_score it s o Hg) as (o1&->&_&_). rewrite Hbg. unfold pscore_evidence.
    assert (exists cs, pclues (A:=D) it (mlook (o_store o)) (o_nspam o) (o_nham o) (Some bg) (elems s) = Ok cs)
      as [cs Ec].
    { destruct bg; simpl.
      - destruct (pclues_bi_TypeError mnum_total (mlook (o_store o)) (o_nspam o) (o_nham o) Hn Hs0 (elems s))
          as [T1 T2]; [intros w pos _; apply Hq|].
        destruct (pclues_bi _ _ _ _) as [cs|e] eqn:Ec; [eauto|]. exfalso.
        rewrite (T2 e eq_refl) in T1. destruct (proj1 T1 eq_refl) as (w1&w2&_&_&[p1 O1]&[p2 O2]&Hk&_).
        apply Hk. simpl in Hty.
        assert (forall w pos, occurs (elems s) w pos -> wkind w = 0%N) as Hstr.
        { intros w pos [(i&Hi&_)|(i&x&y&_&_&->&_)]; [|done].
          destruct (Hty w) as [t ->]; [by eapply elem_of_list_lookup_2|done]. }
        by rewrite (Hstr _ _ O1), (Hstr _ _ O2).
      - destruct (pclues_uni_TypeError mnum_total (mlook (o_store o)) (o_nspam o) (o_nham o) it (elems s) Hit)
          as [T1 T2]; [intros w _; apply Hq|].
        destruct (pclues_uni _ _ _ _ _) as [cs|e] eqn:Ec; [eauto|]. exfalso.
        rewrite (T2 e eq_refl) in T1. destruct (proj1 T1 eq_refl) as (w1&w2&_&_&O1&O2&Hk&_).
        apply Hk. by apply Hty. }
    rewrite Ec. cbn [rbind].
    assert (Forall (fun q => u <= q <= 1 - u) (c_prob <$> cs)) as Hps.
    { apply Forall_fmap, Forall_forall. intros c Hc.
      pose proof (pclues_elem mnum_total it _ _ _ _ _ _ _ Hit Ec Hc) as Hw.
      apply word_clue_Ok in Hw as (_&_&Hq'&_).
      destruct (matched_spam_probability (c_word c)) as (q&Eq&Rq&_).
      change (spam_probability o (c_word c) = Ok (c_prob c)) in Hq'. rewrite Eq in Hq'.
      injection Hq' as Hq'. simpl. rewrite <- Hq'. exact Rq. }
    destruct (score_probs_b64 _ Hps) as (p&S&H&->&_&_&_).
    { rewrite fmap_length. by eapply pclues_length. }
    simpl. eauto.
  Qed.

  (** What is reported about a word *)
  Lemma evidence_b64 s p ev o' : spamprob_evidence mem_backend it s o = (o', Ok (p, ev)) ->
    Forall (fun x => let r := robinson (containing true x.1 ms) (total true ms)
                                       (containing false x.1 ms) (total false ms) in
              (0 < containing true x.1 ms + containing false x.1 ms)%Z /\
              Rabs (x.2 - r) <= 2 / 10 ^ 15 * r /\ 0 < x.2 < 1) (drop 2 ev).
  Proof.
    intros E. assert (mgood o) as Hg by apply (reachable_good it Hit).
    destruct (score_evidence_inv it s o o' p ev Hg E) as (cs&S&H&Ec&Es&->).
    destruct (evidence_tail mnum_total cs S H) as (rest&->&HP&_). simpl. rewrite drop_0.
    rewrite HP. unfold ev_pairs. apply Forall_fmap, Forall_forall. intros c Hc. simpl.
    pose proof (pclues_elem mnum_total it _ _ _ _ _ _ _ Hit Ec Hc) as Hw.
    apply word_clue_Ok in Hw as (_&_&Hq&Hd).
    pose proof (pclues_significant it Hit _ _ _ _ _ _ _ Ec Hc) as Hsig.
    destruct (matched_spam_probability (c_word c)) as (q&Eq&Rq&Nq&Zq).
    change (spam_probability o (c_word c) = Ok (c_prob c)) in Hq. rewrite Eq in Hq.
    injection Hq as Hq. pose proof u_pos.
    pose proof (containing_le true (c_word c) ms). pose proof (containing_le false (c_word c) ms).
    assert (0 < containing true (c_word c) ms + containing false (c_word c) ms)%Z as Hpos.
    { destruct (Z.eq_dec (containing true (c_word c) ms + containing false (c_word c) ms) 0) as [Hz|?]; [|lia].
      exfalso. specialize (Zq Hz). unfold significant in Hsig. rewrite Hd in Hsig.
      assert (strong (A:=D) (c_prob c) = false) as Hs.
      { rewrite <- Hq, Zq, <- mhalf. apply mnum_sane. }
      unfold strong in Hs. unfold MINIMUM_PROB_STRENGTH in Hsig. congruence. }
    split; [done|]. split; [|lra]. rewrite <- Hq. by apply near9, Nq.
  Qed.
End matched.

(** ** A case: one message learned, its word scored *)
Lemma one_clue_b64 {M : machine} : exists o' p ev,
  spamprob_evidence mem_backend remove_dups (SList [WStr (str "a")])
    (fst (run mem_backend remove_dups [CLearn (SList [WStr (str "a")]) true]
            (c_new false ∅ : dobj))) = (o', Ok (p, ev)) /\ length ev = 3%nat.
Proof.
  set (a := WStr (str "a")).
  assert (matched false [CLearn (SList [a]) true] [([a], true)]) as Hm.
  { apply (matched_learn false [] [] (SList [a]) true [a]); [constructor|done]. }
  assert (bounded_set [([a], true)]) as Hb by (unfold bounded_set; simpl; lia).
  destruct (score_returns_b64 remove_dups remove_dups_ok false _ _ Hm Hb (SList [a])) as (o'&p&ev&E).
  { repeat constructor. simpl. by intros ?%elem_of_list_singleton. }
  { intros w1 w2. simpl. rewrite !elem_of_list_singleton. by intros -> ->. }
  exists o', p, ev. split; [done|].
  destruct (clues_uni mnum_total remove_dups remove_dups_ok _ _ _ _ _ E) as (evH&evS&used&->&Nd&_&Hin&Hout).
  set (o := fst _) in *.
  destruct (matched_spam_probability remove_dups remove_dups_ok false _ _ Hm Hb a) as (q&Hp&_&Nq&_).
  fold o in Hp.
  assert (containing true a [([a], true)] = 1%Z) as Ca by (by vm_compute).
  assert (containing false a [([a], true)] = 0%Z) as Cb by done.
  rewrite Ca, Cb in Nq. specialize (Nq ltac:(lia)). apply near9 in Nq.
  assert (robinson 1 1 0 0 = 49 / 58) as Er.
  { assert (spam_share 1 1 0 0 = 1) as Es.
    { unfold spam_share, fraction, nonempty_total. simpl. field. }
    unfold robinson. cbv zeta. rewrite Es. change (0 + 1)%Z with 1%Z. field. }
  change (total true [([a], true)]) with 1%Z in Nq. change (total false [([a], true)]) with 0%Z in Nq.
  rewrite Er in Nq. replace (10 ^ 15) with 1000000000000000 in Nq by (simpl; ring).
  apply Rabs_le_inv in Nq.
  assert (a ∈ used.*1) as Ha.
  { destruct (decide (a ∈ used.*1)) as [?|Hn]; [done|].
    destruct (Hout a q) as [Hs|[Hl _]]; [left|done|done| |].
    - exfalso. revert Hs. unfold strong, strength, nge. cbn [nabs nsub nQ nlt mnum].
      rewrite mhalf, (mb (q - 1 / 2) 1), (mb (1 / 10) 1) by (first [apply Rabs_le; lra | simpl; lra]).
      destruct (rltb _ _) eqn:El; [|done]. intros _. apply rltb_true in El.
      assert (1 / 4 <= b64 (q - 1 / 2)) as B1.
      { replace (1 / 4) with (bpow radix2 (-2)) by (simpl; lra). apply b64_ge_bpow; [lia|]. simpl. lra. }
      assert (b64 (1 / 10) <= 1 / 4) as B2.
      { replace (1 / 4) with (b64 (1 / 4)).
        - apply (rnd_mono b64 rounding_b64). lra.
        - replace (1 / 4) with (bpow radix2 (-2)) by (simpl; lra). apply b64_bpow. lia. }
      rewrite Rabs_pos_eq in El by lra. lra.
    - exfalso. destruct used as [|[w1 q1] [|[w2 q2] used]]; simpl in Hl; [lia|lia|].
      destruct (Hin w1 q1) as [H1 _]; [left|]. destruct (Hin w2 q2) as [H2 _]; [right; left|].
      simpl in H1, H2. apply elem_of_list_singleton in H1, H2. subst.
      apply NoDup_cons in Nd as [Hnd _]. apply Hnd. left. }
  destruct used as [|[w1 q1] [|[w2 q2] used]]; [by apply elem_of_nil in Ha|done|].
  exfalso. destruct (Hin w1 q1) as [H1 _]; [left|]. destruct (Hin w2 q2) as [H2 _]; [right; left|].
  simpl in H1, H2. apply elem_of_list_singleton in H1, H2. subst.
  apply NoDup_cons in Nd as [Hnd _]. apply Hnd. left.
Qed.
