(** * Which messages cannot be scored after an arbitrary history *)
From Coq Require Import Reals Lra String.
From Verif Require Import Py NumModel ClassifierModel TrainSpec TrainProofs ScoreProofs ScoreSpec ClueProofs TileProofs
  RealModel RealSpec RealProofs ExactProofs ApiProofs FloatProofs FloatApiProofs ExcessSpec.

Section excess.
  Context {A : num} (it : set_order) (Hit : set_order_ok it).
  Notation mobj := (obj A (gmap pyword winfo)).
  Notation start bg := (c_new bg ∅ : mobj).
  Notation after bg h := (fst (run mem_backend it h (start bg))).

  Lemma after_snoc bg h c : after bg (h ++ [c]) = fst (run_call mem_backend it c (after bg h)).
  Proof.
    rewrite run_app. destruct (run mem_backend it h _) as [o1 r1]. simpl.
    by destruct (run_call mem_backend it c o1) as [o2 r2].
  Qed.

  Lemma token_dec bg s w : tokens_of bg s w \/ ~ tokens_of bg s w.
  Proof. rewrite <- toks_spec. destruct (decide (w ∈ toks bg s)); auto. Qed.

  Lemma learns_snoc b h c : learns b (h ++ [c]) = (learns b h + match c with CLearn _ b' => if eqb b b' then 1 else 0 | _ => 0 end)%Z.
  Proof. induction h as [|[s b'|s b'|s] h IH]; simpl; [destruct c; lia|rewrite ?IH; lia..]. Qed.
  Lemma unlearns_snoc b h c : unlearns b (h ++ [c]) = (unlearns b h + match c with CUnlearn _ b' => if eqb b b' then 1 else 0 | _ => 0 end)%Z.
  Proof. induction h as [|[s b'|s b'|s] h IH]; simpl; [destruct c; lia|rewrite ?IH; lia..]. Qed.

  (** What one further call does to a total and to a count *)
  Lemma call_effect bg h c b w :
    let o := after bg h in let o' := after bg (h ++ [c]) in
    match c with
    | CLearn s b' =>
        total_of b o' = (total_of b o + if eqb b b' then 1 else 0)%Z /\
        (count b (o_store o !! w) <= count b (o_store o' !! w) <= count b (o_store o !! w) + if eqb b b' then 1 else 0)%Z /\
        (~ tokens_of bg s w -> o_store o' !! w = o_store o !! w)
    | CUnlearn s b' =>
        (total_of b o - (if eqb b b' then 1 else 0) <= total_of b o')%Z /\
        (count b (o_store o' !! w) <= count b (o_store o !! w))%Z /\
        (o_store o !! w = None -> o_store o' !! w = None)
    | CScore s => total_of b o' = total_of b o /\ o_store o' !! w = o_store o !! w
    end.
  Proof.
    intros o o'. unfold o'. rewrite after_snoc. fold o.
    assert (mgood o) as Hg by apply (reachable_good it Hit).
    assert (o_bigrams o = Some bg) as Hbg by (unfold o; by rewrite run_bigrams).
    assert (forall v, 0 <= count true (o_store o !! v) /\ 0 <= count false (o_store o !! v))%Z as H0.
    { intros v. destruct (reachable_wf (A:=A) it Hit bg h) as (_&_&Hw). fold o in Hw.
      destruct (o_store o !! v) as [r|] eqn:E; simpl; [|lia]. destruct (Hw v r E) as (?&?&?). lia. }
    destruct c as [s b'|s b'|s]; simpl.
    - destruct (learn_frame (A:=A) it Hit bg h s b') as (o1&E&T1&T2&F1&F2). fold o in E, T1, T2, F1, F2. rewrite E. simpl.
      split; [destruct b, b'; simpl in *; lia|]. split; [|apply F1].
      destruct (token_dec bg s w) as [D|D].
      + apply F2 in D as [D1 D2]. destruct b, b'; simpl in *; lia.
      + rewrite F1 by done. destruct b, b'; simpl; lia.
    - destruct (unlearn mem_backend it s b' o) as [o1 [[]|e]] eqn:E; simpl.
      + destruct (unlearn_frame (A:=A) it Hit bg h s b' o1 E) as (T1&T2&F1&F2). fold o in T1, T2, F1, F2.
        split; [destruct b, b'; simpl in *; lia|]. split.
        * destruct (token_dec bg s w) as [D|D]; [|rewrite F1 by done; lia].
          destruct (H0 w). apply F2 in D as [D1 D2]. destruct b, b'; simpl in *; lia.
        * intros En. destruct (token_dec bg s w) as [D|D]; [|by rewrite F1].
          destruct (reachable_wf (A:=A) it Hit bg (h ++ [CUnlearn s b'])) as (_&_&Hw). rewrite after_snoc in Hw. fold o in Hw.
          simpl in Hw. rewrite E in Hw. simpl in Hw. apply F2 in D as [D1 D2]. rewrite En in D1, D2.
          destruct (o_store o1 !! w) as [r|] eqn:Er; [|done]. exfalso.
          destruct (Hw w r Er) as (?&?&?). destruct b'; simpl in *; lia.
      + destruct (proj1 (unlearn_refused it Hit s b' bg o Hbg) o1 e E) as (_&_&(E1&E2&E3&_)).
        unfold total_of. rewrite E1, E2, E3. split; [destruct b, b'; simpl; lia|]. split; [lia|done].
    - destruct (mem_score it s o Hg) as (o1&E&_&(E1&E2&E3&_)). rewrite E. simpl. unfold total_of. by rewrite E1, E2, E3.
  Qed.

  Lemma excess_bounded bg h b w :
    (count b (o_store (after bg h) !! w) <= total_of b (after bg h) + unlearns b h)%Z.
  Proof.
    induction h as [|c h IH] using rev_ind; [simpl; rewrite lookup_empty; by destruct b|].
    pose proof (call_effect bg h c b w) as H. rewrite unlearns_snoc. cbn zeta in H.
    destruct c as [s b'|s b'|s].
    - destruct H as (H1&H2&_). destruct (eqb b b'); lia.
    - destruct H as (H1&H2&_). destruct (eqb b b'); lia.
    - destruct H as (H1&H2). rewrite H1, H2. lia.
  Qed.

  Lemma apart_kept bg h ls b w (T : pyword -> Prop) : (forall b', unlearns b' ls = 0%Z) -> learned_apart bg ls T -> T w ->
    total_of b (after bg (h ++ ls)) = (total_of b (after bg h) + learns b ls)%Z /\
    o_store (after bg (h ++ ls)) !! w = o_store (after bg h) !! w.
  Proof.
    induction ls as [|c ls IH] using rev_ind; intros Hu Ha HT.
    { rewrite app_nil_r. simpl. split; [lia|done]. }
    destruct IH as [IH1 IH2].
    { intros b'. specialize (Hu b'). rewrite unlearns_snoc in Hu.
      assert (forall h', 0 <= unlearns b' h')%Z as H0.
      { induction h' as [|[s b''|s b''|s] h' IH']; simpl; [lia|lia| |lia]. destruct (eqb b' b''); lia. }
      specialize (H0 ls). destruct c as [s b''|s b''|s]; try lia. destruct (eqb b' b''); lia. }
    { intros s b' v Hs. apply (Ha s b' v). apply elem_of_app. by left. }
    { done. }
    rewrite app_assoc. pose proof (call_effect bg (h ++ ls) c b w) as H. cbn zeta in H. rewrite learns_snoc.
    destruct c as [s b'|s b'|s].
    - destruct H as (H1&_&H3). rewrite H1, IH1. split; [lia|]. rewrite H3, IH2; [done|].
      intros Hs. refine (Ha s b' w _ Hs HT). apply elem_of_app. right. by apply elem_of_list_singleton.
    - exfalso. specialize (Hu b'). rewrite unlearns_snoc in Hu.
      assert (forall h', 0 <= unlearns b' h')%Z as H0.
      { induction h' as [|[s' b''|s' b''|s'] h' IH']; simpl; [lia|lia| |lia]. destruct (eqb b' b''); lia. }
      specialize (H0 ls). destruct b'; simpl in Hu; lia.
    - destruct H as (H1&H2). rewrite H1, H2, IH1, IH2. split; [lia|done].
  Qed.

  Lemma none_unknown bg h w : (forall s b, CLearn s b ∈ h -> ~ tokens_of bg s w) -> o_store (after bg h) !! w = None.
  Proof.
    induction h as [|c h IH] using rev_ind; intros Hn; [simpl; by rewrite lookup_empty|].
    assert (o_store (after bg h) !! w = None) as En.
    { apply IH. intros s b Hs. apply (Hn s b). apply elem_of_app. by left. }
    pose proof (call_effect bg h c true w) as H. cbn zeta in H. destruct c as [s b'|s b'|s].
    - destruct H as (_&_&H). rewrite H; [done|]. apply (Hn s b'). apply elem_of_app. right. by apply elem_of_list_singleton.
    - destruct H as (_&_&H). by apply H.
    - destruct H as [_ ->]. done.
  Qed.

  (** Errors of the formula *)
  Lemma rmap_Err {B C} (f : B -> res C) l e : rmap f l = Err e -> exists x, x ∈ l /\ f x = Err e.
  Proof.
    induction l as [|x l IH]; simpl; [done|]. destruct (f x) as [y|e'] eqn:E; simpl.
    - destruct (rmap f l) as [ys|e']; simpl; [done|]. intros [= ->]. destruct IH as (z&Hz&Ez); [done|].
      exists z. split; [by right|done].
    - intros [= ->]. exists x. split; [left|done].
  Qed.

  Lemma word_clue_Err lk ns nh w e : word_clue (A:=A) lk ns nh w = Err e <-> word_prob (A:=A) lk ns nh w = Err e.
  Proof. unfold word_clue. destruct (word_prob lk ns nh w); simpl; split; congruence. Qed.
End excess.

Section raw.
  Context {A : num} (lk : pyword -> option winfo) (ns nh : Z).
  Notation wclue := (word_clue (A:=A) lk ns nh).

  Lemma pconsider_Err w idx acc e : pconsider (A:=A) lk ns nh w idx acc = Err e -> wclue w = Err e.
  Proof.
    destruct acc as [seen raw]. unfold pconsider. destruct (decide (w ∈ seen)); [done|].
    destruct (wclue w); simpl; congruence.
  Qed.

  Lemma pbigram_raw_Err l : forall i last0 pair acc e, pbigram_raw (A:=A) lk ns nh i last0 pair l acc = Err e ->
    exists w, w ∈ bi_candidates i last0 pair l /\ wclue w = Err e.
  Proof.
    induction l as [|x l IH]; intros i last0 pair acc e; simpl; [done|].
    destruct (pconsider lk ns nh x [i] acc) as [acc1|e1] eqn:E1; simpl.
    - destruct (pconsider lk ns nh _ [(i - 1)%Z; i] acc1) as [acc2|e2] eqn:E2; simpl.
      + intros H. destruct (IH _ _ _ _ _ H) as (w&Hw&Ew). exists w. split; [by do 2 right|done].
      + intros [= ->]. apply pconsider_Err in E2. eexists. split; [right; left|exact E2].
    - intros [= ->]. apply pconsider_Err in E1. eexists. split; [left|exact E1].
  Qed.
End raw.

Section doubles.
  Context {M : machine} (it : set_order) (Hit : set_order_ok it).
  Notation after bg h := (fst (run mem_backend it h (c_new bg ∅ : obj (mnum M) (gmap pyword winfo)))).

  (** The probability of a word *)
  Lemma probability_outcome bg h w : bounded h ->
    (exists b : bool, spam_probability (after bg h) w = Err (if b then Exception2 else Exception1) /\ overdrawn (after bg h) b w) \/
    (exists q, spam_probability (after bg h) w = Ok q /\ forall b, ~ overdrawn (after bg h) b w).
  Proof.
    intros Hb. set (o := after bg h). assert (counts_ok o) as (N1&N2&Hw) by apply (reachable_wf it Hit).
    pose proof (reachable_size (A := mnum M) it Hit bg h) as (S1&S3). fold o in S1, S3.
    unfold spam_probability, overdrawn, total_of. destruct (o_store o !! w) as [r|] eqn:E.
    - destruct (Hw w r E) as (H1&H2&H3). specialize (S3 w r E). unfold bounded in Hb.
      destruct (Z.lt_ge_cases (Z.max 1 (o_nham o)) (hamcount r)) as [L1|L1].
      { left. exists false. split; [|done]. unfold prob_formula.
        destruct (Z.eqb_spec (o_nham o) 0) as [Z1|Z1].
        - rewrite (proj2 (Z.ltb_lt _ _)) by lia. done.
        - rewrite (proj2 (Z.ltb_lt _ _)) by lia. done. }
      destruct (Z.lt_ge_cases (Z.max 1 (o_nspam o)) (spamcount r)) as [L2|L2].
      { left. exists true. split; [|done]. unfold prob_formula.
        rewrite (proj2 (Z.ltb_ge _ _)) by (destruct (Z.eqb_spec (o_nham o) 0); lia).
        rewrite (proj2 (Z.ltb_lt _ _)) by (destruct (Z.eqb_spec (o_nspam o) 0); lia). done. }
      right. destruct (prob_mach (o_nspam o) (o_nham o) r) as (p&Ep&_).
      + unfold consistent. split_and!; try done; destruct (Z.eqb_spec (o_nspam o) 0), (Z.eqb_spec (o_nham o) 0); lia.
      + unfold few. lia.
      + unfold few. lia.
      + unfold few. lia.
      + exists p. split; [done|]. intros [|]; simpl; lia.
    - right. exists (nQ (mnum M) 1 2). split; [done|]. intros [|]; simpl; lia.
  Qed.

  Lemma score_outcome bg h s : bounded h -> one_type bg (elems s) ->
    (bg = true -> forall s' b, CLearn s' b ∈ h -> ~ tokens_of bg s' WNone) ->
    (exists o' p ev, spamprob_evidence mem_backend it s (after bg h) = (o', Ok (p, ev)) /\
       forall b w, candidate bg (elems s) w -> ~ overdrawn (after bg h) b w) \/
    (exists o' (b : bool) w, spamprob_evidence mem_backend it s (after bg h) = (o', Err (if b then Exception2 else Exception1)) /\
       candidate bg (elems s) w /\ overdrawn (after bg h) b w).
  Proof.
    intros Hb Hty Hnone. set (o := after bg h).
    assert (mgood o) as Hg by apply (reachable_good it Hit).
    assert (o_bigrams o = Some bg) as Hbg by (unfold o; by rewrite run_bigrams).
    assert (strong (A:=mnum M) (nQ (mnum M) 1 2) = false) as Hs0 by apply mnum_sane.
    destruct (mem_score it s o Hg) as (o1&->&_&_). rewrite Hbg. unfold pscore_evidence.
    set (lk := mlook (o_store o)).
    assert (forall w, (exists b : bool, word_prob (A:=mnum M) lk (o_nspam o) (o_nham o) w = Err (if b then Exception2 else Exception1) /\ overdrawn o b w) \/
      (exists q, word_prob (A:=mnum M) lk (o_nspam o) (o_nham o) w = Ok q /\ forall b, ~ overdrawn o b w)) as HP.
    { intros w. exact (probability_outcome bg h w Hb). }
    assert (match pclues (A:=mnum M) it lk (o_nspam o) (o_nham o) (Some bg) (elems s) with
            | Ok cs => forall w, candidate bg (elems s) w -> exists q, word_prob (A:=mnum M) lk (o_nspam o) (o_nham o) w = Ok q
            | Err e => exists w, candidate bg (elems s) w /\ word_prob (A:=mnum M) lk (o_nspam o) (o_nham o) w = Err e
            end) as HC.
    { destruct bg; simpl.
      - assert (lk WNone = None) as Hn by exact (none_unknown it Hit true h WNone (Hnone eq_refl)).
        destruct (pbigram_raw (A:=mnum M) lk (o_nspam o) (o_nham o) 0 WNone WNone (elems s) (∅, [])) as [acc|e] eqn:Er.
        + destruct (occurs_seen mnum_total lk (o_nspam o) (o_nham o) (elems s) acc Er) as ([_ _ _ I4]&Hocc).
          assert (forall w pos, occurs (elems s) w pos -> exists q, word_prob (A:=mnum M) lk (o_nspam o) (o_nham o) w = Ok q) as Hq.
          { intros w pos Ho. destruct (I4 w (Hocc w pos Ho)) as (c&Hc&_). apply word_clue_Ok in Hc as (_&_&Hc&_). by exists (c_prob c). }
          destruct (pclues_bi_TypeError mnum_total lk (o_nspam o) (o_nham o) Hn Hs0 (elems s) Hq) as [T1 T2].
          destruct (pclues_bi _ _ _ _) as [cs|e] eqn:Ec.
          * intros w [pos Ho]. by apply (Hq w pos).
          * exfalso. rewrite (T2 e eq_refl) in T1. destruct (proj1 T1 eq_refl) as (w1&w2&_&_&[p1 O1]&[p2 O2]&Hk&_).
            apply Hk. simpl in Hty.
            assert (forall w pos, occurs (elems s) w pos -> wkind w = 0%N) as Hstr.
            { intros w pos [(i&Hi&_)|(i&x&y&_&_&->&_)]; [|done].
              destruct (Hty w) as [t ->]; [by eapply elem_of_list_lookup_2|done]. }
            by rewrite (Hstr _ _ O1), (Hstr _ _ O2).
        + unfold pclues_bi. rewrite Er. cbn [rbind]. destruct (pbigram_raw_Err lk _ _ _ _ _ _ _ _ Er) as (w&Hw&Ew).
          apply word_clue_Err in Ew. exists w. split; [|done].
          destruct (bi_candidates_spec (elems s) [] WNone WNone w) as [idx H]; [done|done|done|].
          simpl in H. destruct H as [H|(->&_&_)]; [by exists idx|]. exfalso. revert Ew. unfold word_prob. by rewrite Hn.
      - destruct (rmap (word_clue (A:=mnum M) lk (o_nspam o) (o_nham o)) (it (elems s))) as [tups|e] eqn:Er.
        + assert (forall w, w ∈ elems s -> exists q, word_prob (A:=mnum M) lk (o_nspam o) (o_nham o) w = Ok q) as Hq.
          { intros w Hw. assert (w ∈ it (elems s)) as Hw' by by apply Hit.
            pose proof (rmap_clue_words lk _ _ _ _ Er) as Ew. rewrite <- Ew in Hw'. apply elem_of_list_fmap in Hw' as (c&->&Hc).
            apply (rmap_clue_elem lk _ _ _ _ c Er) in Hc as [_ Hc]. apply word_clue_Ok in Hc as (_&_&Hc&_). by exists (c_prob c). }
          destruct (pclues_uni_TypeError mnum_total lk (o_nspam o) (o_nham o) it (elems s) Hit Hq) as [T1 T2].
          destruct (pclues_uni _ _ _ _ _) as [cs|e] eqn:Ec; [done|].
          exfalso. rewrite (T2 e eq_refl) in T1. destruct (proj1 T1 eq_refl) as (w1&w2&_&_&O1&O2&Hk&_).
          apply Hk. by apply Hty.
        + unfold pclues_uni. rewrite Er. cbn [rbind]. destruct (rmap_Err _ _ _ Er) as (w&Hw&Ew).
          apply word_clue_Err in Ew. exists w. split; [by apply Hit|done]. }
    destruct (pclues (A:=mnum M) it lk (o_nspam o) (o_nham o) (Some bg) (elems s)) as [cs|e] eqn:Ec.
    - left. cbn [rbind].
      assert (Forall (fun q => u <= q <= 1 - u)%R (c_prob <$> cs)) as Hps.
      { apply (clues_b64 it Hit bg h (elems s) cs Hb). fold o. rewrite Hbg. exact Ec. }
      destruct (score_probs_b64 _ Hps) as (p&S'&H'&->&_&_&_).
      { rewrite fmap_length. by eapply (pclues_length it Hit). }
      simpl. eexists o1, _, _. split; [done|]. intros b w Hw.
      destruct (HC w Hw) as [q Hq]. destruct (HP w) as [(b'&E&_)|(q'&_&Hn)]; [congruence|apply Hn].
    - right. cbn [rbind]. destruct HC as (w&Hw&Ew). destruct (HP w) as [(b&E&Hov)|(q&E&_)]; [|congruence].
      exists o1, b, w. split; [|done]. f_equal. congruence.
  Qed.

  (** Further learned messages make up for what was unlearned *)
  Lemma repaired bg h ls s : bounded (h ++ ls) -> one_type bg (elems s) ->
    (bg = true -> forall s' b, CLearn s' b ∈ h ++ ls -> ~ tokens_of bg s' WNone) ->
    (forall b, unlearns b ls = 0%Z /\ (unlearns b h <= learns b ls)%Z) -> learned_apart bg ls (candidate bg (elems s)) ->
    exists o' p ev, spamprob_evidence mem_backend it s (after bg (h ++ ls)) = (o', Ok (p, ev)).
  Proof.
    intros Hb Hty Hn Hl Ha. destruct (score_outcome bg (h ++ ls) s Hb Hty Hn) as [(o'&p&ev&E&_)|(o'&b&w&_&Hw&Hov)]; [eauto|].
    exfalso. destruct (apart_kept (A:=mnum M) it Hit bg h ls b w _ (fun b' => proj1 (Hl b')) Ha Hw) as [E1 E2].
    pose proof (excess_bounded (A:=mnum M) it Hit bg h b w) as H. destruct (Hl b) as [_ H2].
    unfold overdrawn in Hov. rewrite E1, E2 in Hov. lia.
  Qed.
End doubles.
