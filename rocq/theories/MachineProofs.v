(** * Two machines: the same clues, nearly the same score (C121) *)
From Coq Require Import Reals Lra Lia String.
From Flocq Require Import Core.
From Verif Require Import Py NumModel ClassifierModel TrainSpec TrainProofs ScoreProofs
  SortProofs ScoreSpec ClueProofs TileProofs RealModel RealSpec RealProofs ExactProofs ApiProofs
  FloatProofs FloatApiProofs PickleModel PickleSpec PickleProofs MessageModel.
Local Open Scope R_scope.

(** ** Training does not compute with probabilities *)
Definition twins {A B : num} (o1 : obj A (gmap pyword winfo)) (o2 : obj B (gmap pyword winfo)) : Prop :=
  o_bigrams o1 = o_bigrams o2 /\ o_nspam o1 = o_nspam o2 /\ o_nham o1 = o_nham o2 /\
  o_store o1 = o_store o2.

Section twins.
  Context {A B : num} (it1 it2 : set_order) (H1 : set_order_ok it1) (H2 : set_order_ok it2).
  Notation ob := (obj B (gmap pyword winfo)).
  Notation oa := (obj A (gmap pyword winfo)).

  Lemma twins_call c bg (o1 : oa) (o2 : ob) : o_bigrams o1 = Some bg -> twins o1 o2 ->
    twins (fst (run_call mem_backend it1 c o1)) (fst (run_call mem_backend it2 c o2)).
  Proof.
    intros Hb (T1&T2&T3&T4). assert (o_bigrams o2 = Some bg) as Hb2 by congruence.
    destruct c as [s b|s b|s]; simpl.
    - destruct (learn_mem it1 H1 s b bg o1 Hb) as (m1&E1&L1).
      destruct (learn_mem it2 H2 s b bg o2 Hb2) as (m2&E2&L2).
      rewrite E1, E2. unfold twins. simpl. rewrite T2, T3. split_and!; [done..|].
      apply map_eq. intros w. by rewrite L1, L2, T4.
    - destruct (Z.leb_spec (if b then o_nspam o1 else o_nham o1) 0) as [Hz|Hz].
      + rewrite (unlearn_mem_zero it1 s b bg o1 Hb Hz).
        rewrite (unlearn_mem_zero it2 s b bg o2 Hb2) by (rewrite <- T2, <- T3; done).
        by split_and!.
      + destruct (unlearn_mem_pos it1 H1 s b bg o1 Hb Hz) as (m1&E1&L1).
        destruct (unlearn_mem_pos it2 H2 s b bg o2 Hb2) as (m2&E2&L2); [rewrite <- T2, <- T3; done|].
        rewrite E1, E2. unfold twins. simpl. rewrite T2, T3. split_and!; [done..|].
        apply map_eq. intros w. by rewrite L1, L2, T4.
    - pose proof (untouched_spamprob_evidence it1 s o1) as (U1&U2&U3&U4).
      pose proof (untouched_spamprob_evidence it2 s o2) as (V1&V2&V3&V4).
      destruct (spamprob_evidence mem_backend it1 s o1) as [o1' r1].
      destruct (spamprob_evidence mem_backend it2 s o2) as [o2' r2]. simpl in *.
      unfold twins. split_and!; congruence.
  Qed.

  Lemma twins_run bg h : forall (o1 : oa) (o2 : ob), o_bigrams o1 = Some bg -> twins o1 o2 ->
    twins (fst (run mem_backend it1 h o1)) (fst (run mem_backend it2 h o2)).
  Proof.
    induction h as [|c h IH]; intros o1 o2 Hb T; simpl; [done|].
    pose proof (twins_call c bg o1 o2 Hb T) as T'.
    pose proof (run_call_bigrams it1 H1 c o1) as Hb'.
    destruct (run_call mem_backend it1 c o1) as [o1' r1].
    destruct (run_call mem_backend it2 c o2) as [o2' r2]. simpl in *.
    assert (o_bigrams o1' = Some bg) as Hb1 by congruence. specialize (IH o1' o2' Hb1 T').
    destruct (run mem_backend it1 h o1'), (run mem_backend it2 h o2'). done.
  Qed.
End twins.

(** ** Lists *)
Lemma rmap_via {A B C} (f : A -> res B) (g : A -> res C) (k : B -> C) l :
  (forall x y, x ∈ l -> f x = Ok y -> g x = Ok (k y)) ->
  forall ys, rmap f l = Ok ys -> rmap g l = Ok (k <$> ys).
Proof.
  induction l as [|x l IH]; intros H ys; simpl; [by intros [= <-]|].
  destruct (f x) as [y|e] eqn:E; simpl; [|done].
  destruct (rmap f l) as [ys'|e]; simpl; [|done]. intros [= <-].
  rewrite (H x y) by (done || apply elem_of_list_here). simpl.
  rewrite (IH (fun a b Ha => H a b (elem_of_list_further _ _ _ Ha)) ys' eq_refl). done.
Qed.

Lemma isort_via {A B} (f : A -> B) la lb : (forall x y, lb (f x) (f y) = la x y) ->
  forall l, isort lb (f <$> l) = f <$> isort la l.
Proof.
  intros H. induction l as [|x l IH]; [done|]. rewrite fmap_cons. cbn [isort]. rewrite IH. clear IH.
  induction (isort la l) as [|y r IH]; [done|]. rewrite fmap_cons. cbn [insert_sorted]. rewrite H.
  destruct (la x y); [done|]. by rewrite IH.
Qed.

Lemma filter_via {A B} (f : A -> B) pa pb : (forall x, pb (f x) = pa x) ->
  forall l, List.filter pb (f <$> l) = f <$> List.filter pa l.
Proof.
  intros H. induction l as [|x l IH]; [done|]. rewrite fmap_cons. cbn [List.filter]. rewrite H, IH.
  by destruct (pa x).
Qed.

(** ** The clues *)
Section conv.
  Context (M1 M2 : machine).
  Notation A1 := (mnum M1).
  Notation A2 := (mnum M2).

  Definition conv (c : clue A1) : clue A2 := Clue (A := A2) (c_dist c) (c_prob c) (c_word c) (c_rec c).

  Lemma machine_01 x : 0 <= x <= 1 -> @mrnd M1 x = @mrnd M2 x.
  Proof.
    intros H. assert (Rabs x <= 1) as Ha by (rewrite Rabs_pos_eq; lra).
    rewrite (mb (M := M1) x 1), (mb (M := M2) x 1) by (done || (simpl; lra)). done.
  Qed.

  Lemma machine_sub q : 0 <= q <= 1 -> nsub A1 q (nQ A1 1 2) = (nsub A2 q (nQ A2 1 2) : R).
  Proof.
    intros H. cbn [nsub nQ mnum]. rewrite (mhalf (M := M1)), (mhalf (M := M2)).
    rewrite (mb (M := M1) _ 1), (mb (M := M2) _ 1) by (first [apply Rabs_le; lra | simpl; lra]). done.
  Qed.

  Lemma significant_conv c : significant (conv c) = significant c.
  Proof.
    unfold significant, nge, MINIMUM_PROB_STRENGTH. cbn [conv c_dist nlt nQ mnum].
    rewrite (machine_01 (1 / 10)) by lra. done.
  Qed.

  Lemma clue_leb_conv a b : clue_leb (conv a) (conv b) = clue_leb a b.
  Proof. done. Qed.

  Lemma kind_clash_conv a b : kind_clash (conv a) (conv b) = kind_clash a b.
  Proof. done. Qed.

  Lemma any_clash_conv l : any_clash (conv <$> l) = any_clash l.
  Proof.
    induction l as [|c l IH]; [done|]. rewrite fmap_cons. cbn [any_clash]. rewrite IH. f_equal. clear IH.
    induction l as [|d l IH]; [done|]. rewrite fmap_cons. cbn [existsb]. by rewrite IH.
  Qed.

  Lemma strongest_conv l : strongest (conv <$> l) = conv <$> strongest l.
  Proof. unfold strongest. rewrite fmap_length. destruct (_ <? _)%nat; [|done]. by rewrite fmap_drop. Qed.

  Definition conv2 (x : clue A1 * list Z) : clue A2 * list Z := (conv x.1, x.2).

  Lemma tile_conv l : forall seen, tile seen (conv2 <$> l) = conv2 <$> tile seen l.
  Proof.
    induction l as [|[c i] l IH]; intros seen; [done|]. rewrite fmap_cons. cbn [tile conv2 fst snd].
    destruct (existsb _ _); [apply IH|]. by rewrite IH, fmap_cons.
  Qed.

  Context (lk : pyword -> option winfo) (ns nh : Z).
  Context (Hag : forall w q, word_prob (A := A1) lk ns nh w = Ok q ->
             word_prob (A := A2) lk ns nh w = Ok q /\ 0 <= q <= 1).

  Lemma word_clue_conv w c : word_clue (A := A1) lk ns nh w = Ok c -> word_clue (A := A2) lk ns nh w = Ok (conv c).
  Proof.
    unfold word_clue. destruct (word_prob (A := A1) lk ns nh w) as [q|e] eqn:E; simpl; [|done].
    apply Hag in E as (->&Hq). simpl. intros [= <-]. f_equal. unfold conv. simpl.
    pose proof (machine_sub q Hq) as Es. cbn [nsub nQ mnum] in Es. by rewrite Es.
  Qed.

  Lemma pclues_uni_conv it ws cs : pclues_uni (A := A1) it lk ns nh ws = Ok cs ->
    pclues_uni (A := A2) it lk ns nh ws = Ok (conv <$> cs).
  Proof.
    unfold pclues_uni. destruct (rmap (word_clue (A := A1) lk ns nh) (it ws)) as [t|e] eqn:E; simpl; [|done].
    rewrite (rmap_via _ (word_clue (A := A2) lk ns nh) conv (it ws) (fun x y _ => word_clue_conv x y) t E). simpl.
    rewrite (filter_via conv significant) by apply significant_conv.
    unfold sort_clues. rewrite any_clash_conv. destruct (any_clash _); simpl; [done|]. intros [= <-].
    rewrite (isort_via conv clue_leb) by apply clue_leb_conv. by rewrite strongest_conv.
  Qed.

  Definition conv_acc (a : gset pyword * list (clue A1 * list Z)) : gset pyword * list (clue A2 * list Z) :=
    (a.1, conv2 <$> a.2).

  Lemma pconsider_conv w i acc acc' : pconsider (A := A1) lk ns nh w i acc = Ok acc' ->
    pconsider (A := A2) lk ns nh w i (conv_acc acc) = Ok (conv_acc acc').
  Proof.
    destruct acc as [seen raw]. unfold pconsider, conv_acc. simpl. destruct (decide (w ∈ seen)).
    { by intros [= <-]. }
    destruct (word_clue (A := A1) lk ns nh w) as [c|e] eqn:E; simpl; [|done].
    rewrite (word_clue_conv w c E). simpl. intros [= <-]. simpl. rewrite significant_conv.
    destruct (significant c); [|done]. by rewrite fmap_app.
  Qed.

  Lemma pbigram_raw_conv l : forall i last pair acc acc',
    pbigram_raw (A := A1) lk ns nh i last pair l acc = Ok acc' ->
    pbigram_raw (A := A2) lk ns nh i last pair l (conv_acc acc) = Ok (conv_acc acc').
  Proof.
    induction l as [|w l IH]; intros i last pair acc acc'; cbn [pbigram_raw]; [by intros [= <-]|].
    destruct (pconsider (A := A1) lk ns nh w [i] acc) as [a1|e] eqn:E1; cbn [rbind]; [|done].
    rewrite (pconsider_conv _ _ _ _ E1). cbn [rbind].
    match goal with |- context [pconsider (A := A1) lk ns nh ?p ?j a1] =>
      destruct (pconsider (A := A1) lk ns nh p j a1) as [a2|e] eqn:E2; cbn [rbind]; [|done] end.
    rewrite (pconsider_conv _ _ _ _ E2). cbn [rbind]. apply IH.
  Qed.

  Lemma pclues_conv it bg ws cs : pclues (A := A1) it lk ns nh bg ws = Ok cs ->
    pclues (A := A2) it lk ns nh bg ws = Ok (conv <$> cs).
  Proof.
    destruct bg as [[]|]; simpl; [|apply pclues_uni_conv|done].
    unfold pclues_bi. destruct (pbigram_raw (A := A1) _ _ _ _ _ _ _ _) as [acc|e] eqn:E; simpl; [|done].
    pose proof (pbigram_raw_conv _ _ _ _ _ _ E) as E2. unfold conv_acc in E2. simpl in E2. rewrite E2. simpl.
    unfold sort_raw_reverse.
    assert (fst <$> (conv2 <$> acc.2) = conv <$> (fst <$> acc.2)) as ->
      by (rewrite <- !list_fmap_compose; done).
    rewrite any_clash_conv. destruct (any_clash _); simpl; [done|]. intros [= <-].
    rewrite (isort_via conv2 raw_leb) by done. rewrite <- (fmap_reverse conv2), tile_conv.
    f_equal. rewrite <- strongest_conv. f_equal. rewrite (fmap_reverse conv), <- !list_fmap_compose. done.
  Qed.
End conv.

(** ** The score *)
Section two.
  Context (M1 M2 : machine) (it1 it2 : set_order) (H1 : set_order_ok it1) (H2 : set_order_ok it2).
  Notation A1 := (mnum M1).
  Notation A2 := (mnum M2).

  Lemma two_machines bg h (o2 : obj A2 (gmap pyword winfo)) s p1 ev1 o1' : bounded h -> mgood o2 ->
    let o1 := fst (run mem_backend it1 h (c_new bg ∅ : obj A1 (gmap pyword winfo))) in
    twins o1 o2 ->
    spamprob_evidence mem_backend it1 s o1 = (o1', Ok (p1, ev1)) ->
    exists o2' p2 ev2, spamprob_evidence mem_backend it2 s o2 = (o2', Ok (p2, ev2)) /\
      drop 2 ev2 = drop 2 ev1 /\ Rabs (p1 - p2) <= 8 / 10 ^ 12.
  Proof.
    intros Hb G2 o1 (T1&T2&T3&T4) E. assert (mgood o1) as G1 by apply (reachable_good it1 H1).
    destruct (score_evidence_inv it1 s o1 o1' p1 ev1 G1 E) as (cs&S&H&Ec&Es&->).
    pose proof (clues_b64 (M := M1) it1 H1 bg h _ _ Hb Ec) as Hps. pose proof (pclues_length it1 H1 _ _ _ _ _ _ Ec) as Hlen.
    assert (counts_ok o1) as (N1&N2&Hw) by apply (reachable_wf it1 H1).
    pose proof (reachable_size (A := A1) it1 H1 bg h) as (S1&S3). fold o1 in S1, S3.
    assert (forall w q, word_prob (A := A1) (mlook (o_store o1)) (o_nspam o1) (o_nham o1) w = Ok q ->
              word_prob (A := A2) (mlook (o_store o1)) (o_nspam o1) (o_nham o1) w = Ok q /\ 0 <= q <= 1) as Hag.
    { intros w q Hq. pose proof (spam_probability_b64 (M := M1) it1 H1 bg h w q Hb Hq) as [Hr _].
      pose proof u_pos. split; [|lra]. revert Hq. unfold word_prob, mlook.
      destruct (o_store o1 !! w) as [r|] eqn:Er.
      - intros Hq. destruct (Hw w r Er) as (R1&R2&R3). specialize (S3 w r Er).
        pose proof (prob_formula_consistent _ _ r q N1 N2 R1 R2 R3 Hq) as Hc. unfold bounded in Hb.
        rewrite (prob_machine (M := M2)) by (done || (unfold few; lia)).
        by rewrite (prob_machine (M := M1)) in Hq by (done || (unfold few; lia)).
      - intros [= <-]. unfold UNKNOWN_WORD_PROB. cbn [nQ mnum].
        by rewrite (mhalf (M := M1)), (mhalf (M := M2)). }
    pose proof (pclues_conv M1 M2 _ _ _ Hag it1 _ _ cs Ec) as Ec2.
    assert (pclues (A := A2) it2 (mlook (o_store o2)) (o_nspam o2) (o_nham o2) (o_bigrams o2) (elems s)
              = Ok (conv M1 M2 <$> cs)) as Ec3.
    { rewrite <- T1, <- T2, <- T3, <- T4. destruct (o_bigrams o1) as [[]|]; [exact Ec2| |done].
      pose proof (pclues_uni_same (A := A2) mnum_total (mlook (o_store o1)) (o_nspam o1) (o_nham o1) it1 it2
                    (elems s) (elems s) H1 H2 (fun w => iff_refl _)) as Hs.
      simpl in Ec2. rewrite Ec2 in Hs. simpl. unfold same_result in Hs.
      by destruct (pclues_uni it2 _ _ _ _); subst. }
    assert ((c_prob <$> (conv M1 M2 <$> cs)) = (c_prob <$> cs : list R)) as Ep
      by (rewrite <- list_fmap_compose; done).
    destruct (score_probs_b64 (M := M1) (c_prob <$> cs) Hps) as (p&S'&H'&E1&_&D1&_); [by rewrite fmap_length|].
    destruct (score_probs_b64 (M := M2) (c_prob <$> cs) Hps) as (p2&S2&H2'&E2&_&D2&_); [by rewrite fmap_length|].
    rewrite E1 in Es. apply Ok3_inj in Es as (->&->&->).
    destruct (mem_score it2 s o2 G2) as (o2'&Eo&_&_).
    exists o2', p2, (evidence_of A2 (conv M1 M2 <$> cs) S2 H2'). split_and!.
    - rewrite Eo. unfold pscore_evidence. rewrite Ec3. cbn [rbind].
      change (score_probs A2 (@fmap list _ (clue A2) (F A2) c_prob (conv M1 M2 <$> cs)))
        with (score_probs A2 ((c_prob <$> (conv M1 M2 <$> cs)) : list R)).
      rewrite Ep. by rewrite E2.
    - unfold evidence_of. cbn [drop]. rewrite <- list_fmap_compose. done.
    - apply Rabs_le_inv in D1, D2. unfold tol in *. apply Rabs_le. lra.
  Qed.

  Lemma twins_reached bg h :
    twins (fst (run mem_backend it1 h (c_new bg ∅ : obj A1 (gmap pyword winfo))))
          (fst (run mem_backend it2 h (c_new bg ∅ : obj A2 (gmap pyword winfo)))).
  Proof. by apply (twins_run it1 it2 H1 H2 bg). Qed.

  Lemma same_everywhere bg h s p1 ev1 o1' : bounded h ->
    spamprob_evidence mem_backend it1 s (fst (run mem_backend it1 h (c_new bg ∅ : obj A1 (gmap pyword winfo))))
      = (o1', Ok (p1, ev1)) ->
    exists o2' p2 ev2,
      spamprob_evidence mem_backend it2 s (fst (run mem_backend it2 h (c_new bg ∅ : obj A2 (gmap pyword winfo))))
        = (o2', Ok (p2, ev2)) /\
      drop 2 ev2 = drop 2 ev1 /\ Rabs (p1 - p2) <= 8 / 10 ^ 12.
  Proof.
    intros Hb E. eapply two_machines; [done|apply (reachable_good it2 H2)|apply twins_reached|exact E].
  Qed.

  Lemma carried_over c h s p1 ev1 o1' : codec_ok c -> bounded h ->
    let o1 := fst (run mem_backend it1 h (c_new false ∅ : obj A1 (gmap pyword winfo))) in
    spamprob_evidence mem_backend it1 s o1 = (o1', Ok (p1, ev1)) ->
    exists (o2 o2' : obj A2 (gmap pyword winfo)) p2 ev2,
      pickle_open c None (pickle_store c o1) = (o2, Ok tt) /\
      spamprob_evidence mem_backend it2 s o2 = (o2', Ok (p2, ev2)) /\
      drop 2 ev2 = drop 2 ev1 /\ Rabs (p1 - p2) <= 8 / 10 ^ 12.
  Proof.
    intros Hc Hb o1 E.
    exists (Obj (Some false) (o_nspam o1) (o_nham o1) ∅ (o_store o1)).
    destruct (two_machines false h (Obj (Some false) (o_nspam o1) (o_nham o1) ∅ (o_store o1)) s p1 ev1 o1' Hb)
      as (o2'&p2&ev2&E2&E3&E4).
    - by apply empty_cache_good.
    - unfold twins. simpl. split_and!; try done. by rewrite run_bigrams.
    - exact E.
    - exists o2', p2, ev2. split_and!; try done. unfold pickle_open, pickle_load, pickle_read, pickle_store.
      unfold unpickle, pickle. by rewrite (proj1 Hc).
  Qed.
End two.

(** ** The verdict *)
Lemma verdict_same (M1 M2 : machine) p1 p2 : Rabs (p1 - p2) <= 8 / 10 ^ 12 ->
  9 / 10 ^ 12 < Rabs (p1 - 1 / 5) -> 9 / 10 ^ 12 < Rabs (p1 - 9 / 10) ->
  classify (mnum M1) p1 = classify (mnum M2) p2.
Proof.
  intros Hd Ha Hb. unfold classify, ham_cutoff, spam_cutoff. cbn [nlt nQ mnum].
  rewrite (mb (M := M1) (1 / 5) 1), (mb (M := M2) (1 / 5) 1), (mb (M := M1) (9 / 10) 1), (mb (M := M2) (9 / 10) 1)
    by (first [apply Rabs_le; lra | simpl; lra]).
  assert (forall c, 0 <= c <= 1 -> Rabs (b64 c - c) <= 1 / 10 ^ 13) as Hc.
  { intros c Hc. apply Rle_trans with (1 := b64_err c). rewrite Rabs_pos_eq by lra.
    assert (eta <= u) as He by (unfold eta, u; apply bpow_le; lia).
    assert (u * c <= u * 1) by (apply Rmult_le_compat_l; [pose proof u_pos; lra|lra]).
    rewrite u_val in *. replace (10 ^ 13) with 10000000000000 by (simpl; ring). lra. }
  pose proof (Hc (1 / 5)) as C1. pose proof (Hc (9 / 10)) as C2.
  specialize (C1 ltac:(lra)). specialize (C2 ltac:(lra)).
  apply Rabs_le_inv in Hd, C1, C2.
  replace (10 ^ 13) with 10000000000000 in * by (simpl; ring). replace (10 ^ 12) with 1000000000000 in * by (simpl; ring).
  assert (rltb p1 (b64 (1 / 5)) = rltb p2 (b64 (1 / 5))) as ->.
  { unfold Rabs in Ha. destruct (Rcase_abs (p1 - 1 / 5));
    destruct (rltb p1 (b64 (1 / 5))) eqn:E1, (rltb p2 (b64 (1 / 5))) eqn:E2; try done; exfalso;
    first [apply rltb_true in E1|apply rltb_false in E1]; first [apply rltb_true in E2|apply rltb_false in E2]; lra. }
  assert (rltb (b64 (9 / 10)) p1 = rltb (b64 (9 / 10)) p2) as ->; [|done].
  unfold Rabs in Hb. destruct (Rcase_abs (p1 - 9 / 10));
    destruct (rltb (b64 (9 / 10)) p1) eqn:E1, (rltb (b64 (9 / 10)) p2) eqn:E2; try done; exfalso;
    first [apply rltb_true in E1|apply rltb_false in E1]; first [apply rltb_true in E2|apply rltb_false in E2]; lra.
Qed.
