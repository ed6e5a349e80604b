(** * Proofs about trainers that observe corpora *)
From Coq Require Import Lia.
From Verif Require Import Py NumModel ClassifierModel TrainSpec TrainProofs StripModel RaiseModel RaiseProofs ObserveModel ObserveSpec.

Section observe.
  Context {A : num} (it : set_order) (Hit : set_order_ok it) (p : program).
  Notation mstore := (gmap pyword winfo).
  Notation mobj := (obj A mstore).
  Notation state := (state A mstore).
  Notation o_train := (o_train mem_backend it p).
  Notation run_ocall := (run_ocall mem_backend it p).
  Notation run_ocalls := (run_ocalls mem_backend it p).

  Lemma set_at_eq {B} (f : nat -> B) i b : set_at f i b i = b.
  Proof. unfold set_at. by rewrite decide_True. Qed.

  Lemma set_at_ne {B} (f : nat -> B) i b j : j <> i -> set_at f i b j = f j.
  Proof. intros H. unfold set_at. by rewrite decide_False. Qed.

  (** Learning is the same step from objects that differ in their totals. *)
  Lemma learn_shift s b (o o' : mobj) : o_bigrams o <> None -> o_store o = o_store o' -> o_bigrams o = o_bigrams o' ->
    o_store (learn mem_backend it s b o).1 = o_store (learn mem_backend it s b o').1 /\
    o_bigrams (learn mem_backend it s b o).1 = o_bigrams o /\
    (learn mem_backend it s b o).2 = Ok tt /\
    o_nspam (learn mem_backend it s b o).1 = (o_nspam o + if b then 1 else 0)%Z /\
    o_nham (learn mem_backend it s b o).1 = (o_nham o + if b then 0 else 1)%Z /\
    o_nspam (learn mem_backend it s b o').1 = (o_nspam o' + if b then 1 else 0)%Z /\
    o_nham (learn mem_backend it s b o').1 = (o_nham o' + if b then 0 else 1)%Z /\
    o_bigrams (learn mem_backend it s b o').1 = o_bigrams o'.
  Proof.
    intros HB Hst Hbg. destruct (o_bigrams o) as [bg|] eqn:E; [|done]. symmetry in Hbg.
    destruct (learn_mem it Hit s b bg o E) as (m & -> & Hm). destruct (learn_mem it Hit s b bg o' Hbg) as (m' & -> & Hm').
    simpl. rewrite Hbg. split_and!; try done; [|destruct b; lia..].
    apply map_eq. intros w. by rewrite Hm, Hm', Hst.
  Qed.

  Definition lessons_of (j : nat) (ds : list (watcher * nat)) : list call :=
    (fun q => CLearn (SIter (p_tok p q.2).1) (t_spam q.1)) <$> List.filter (fun q => t_class q.1 =? j) ds.
  Definition failed_of (j : nat) (b : bool) (fs : list watcher) : Z :=
    Z.of_nat (length (List.filter (fun t => (t_class t =? j) && eqb (t_spam t) b) fs)).
  Definition labels_of (r : nat) (ds : list (watcher * nat)) : list bool :=
    (fun q => t_spam q.1) <$> List.filter (fun q => q.2 =? r) ds.

  Definition agree (s0 : state) (ds : list (watcher * nat)) (fs : list watcher) (s : state) : Prop :=
    (forall j, let o := (run mem_backend it (lessons_of j ds) (s_class s0 j)).1 in
       o_bigrams (s_class s j) <> None /\ o_bigrams (s_class s j) = o_bigrams o /\
       o_store (s_class s j) = o_store o /\
       o_nspam (s_class s j) = (o_nspam o + failed_of j true fs)%Z /\
       o_nham (s_class s j) = (o_nham o + failed_of j false fs)%Z) /\
    (forall r, s_label s r = match last (labels_of r ds) with Some b => Some b | None => s_label s0 r end).

  Lemma agree_refl s : (forall j, o_bigrams (s_class s j) <> None) -> agree s [] [] s.
  Proof. intros H. split; [|done]. intros j. cbn. unfold failed_of; simpl. split_and!; try done; lia. Qed.

  Lemma lessons_of_app j ds t r : lessons_of j (ds ++ [(t, r)]) =
    lessons_of j ds ++ (if t_class t =? j then [CLearn (SIter (p_tok p r).1) (t_spam t)] else []).
  Proof. unfold lessons_of. rewrite List.filter_app. simpl. destruct (t_class t =? j); [by rewrite fmap_app|by rewrite !app_nil_r]. Qed.

  Lemma labels_of_app r' ds t r : labels_of r' (ds ++ [(t, r)]) = labels_of r' ds ++ (if r =? r' then [t_spam t] else []).
  Proof. unfold labels_of. rewrite List.filter_app. simpl. destruct (r =? r'); [by rewrite fmap_app|by rewrite !app_nil_r]. Qed.

  Lemma failed_of_app j b fs t : failed_of j b (fs ++ [t]) =
    (failed_of j b fs + if ((t_class t =? j)%nat && eqb (t_spam t) b) then 1 else 0)%Z.
  Proof. unfold failed_of. rewrite List.filter_app, app_length. simpl. destruct (_ && _); simpl; lia. Qed.

  Lemma agree_train s0 ds fs s t r : agree s0 ds fs s -> trainable p r ->
    agree s0 (ds ++ [(t, r)]) fs (o_train t r s).1 /\ (o_train t r s).2 = Ok tt /\
    s_corpora (o_train t r s).1 = s_corpora s.
  Proof.
    intros [Hc Hl] [Hk Ht]. unfold ObserveModel.o_train. rewrite Hk. unfold mbind, on_class.
    destruct (p_tok p r) as [ws e] eqn:Etok. simpl in Ht. subst e. rewrite learn_gen_ok.
    destruct (Hc (t_class t)) as (HB & Hbg & Hst & Hs & Hh).
    destruct (learn_shift (SIter ws) (t_spam t) (s_class s (t_class t)) _ HB Hst Hbg) as (K1 & K2 & K3 & K4 & K5 & K6 & K7 & K8).
    destruct (learn mem_backend it (SIter ws) (t_spam t) (s_class s (t_class t))) as [o' x] eqn:E.
    cbn [fst snd] in *. subst x. simpl. split; [|done]. split.
    - intros j. rewrite lessons_of_app, Etok. cbn [fst snd s_class]. destruct (Nat.eqb_spec (t_class t) j) as [<-|Hj].
      + rewrite set_at_eq, run_app. cbn [fst] in *.
        destruct (run mem_backend it (lessons_of (t_class t) ds) (s_class s0 (t_class t))) as [o1 r1]. cbn [fst] in *. simpl.
        destruct (learn mem_backend it (SIter ws) (t_spam t) o1) as [o2 r2]. simpl in *. rewrite K1, K2, K4, K5, K6, K7, K8.
        split_and!; try done; lia.
      + rewrite set_at_ne, app_nil_r by done. apply Hc.
    - intros r'. rewrite labels_of_app. cbn [s_label]. destruct (Nat.eqb_spec r r') as [<-|Hr].
      + by rewrite set_at_eq, last_snoc.
      + rewrite set_at_ne, app_nil_r by done. apply Hl.
  Qed.

  Lemma agree_fail s0 ds fs s t r e : agree s0 ds fs s -> p_key p r = true -> (p_tok p r).2 = Some e ->
    agree s0 ds (fs ++ [t]) (o_train t r s).1 /\ (o_train t r s).2 = Err e /\ s_corpora (o_train t r s).1 = s_corpora s.
  Proof.
    intros [Hc Hl] Hk Ht. unfold ObserveModel.o_train. rewrite Hk. unfold mbind, on_class.
    destruct (p_tok p r) as [ws e'] eqn:Etok. simpl in Ht. subst e'.
    destruct (Hc (t_class t)) as (HB & Hbg & Hst & Hs & Hh).
    destruct (learn_gen_raises mem_backend it ws e (t_spam t) _ HB) as (o' & -> & H1 & H2 & H3 & H4 & _). simpl. split; [|done].
    split; [|done]. intros j. cbn [s_class]. rewrite !failed_of_app. destruct (Nat.eqb_spec (t_class t) j) as [<-|Hj].
    - rewrite set_at_eq, H1, H2, H3, H4. split_and!; try done; destruct (t_spam t); simpl; lia.
    - rewrite set_at_ne by done. simpl. rewrite !Z.add_0_r. apply Hc.
  Qed.

  Lemma no_key t r (s : state) : p_key p r = false -> o_train t r s = (s, Err AttributeError).
  Proof. intros H. unfold ObserveModel.o_train. by rewrite H. Qed.

  Lemma agree_for ts r : trainable p r -> forall s0 ds fs s, agree s0 ds fs s ->
    agree s0 (ds ++ ((fun t => (t, r)) <$> ts)) fs (mfor ts (fun t => o_train t r) s).1 /\
    (mfor ts (fun t => o_train t r) s).2 = Ok tt /\
    s_corpora (mfor ts (fun t => o_train t r) s).1 = s_corpora s.
  Proof.
    intros Hr. induction ts as [|t ts IH]; intros s0 ds fs s H; cbn [mfor].
    - rewrite app_nil_r. done.
    - destruct (agree_train s0 ds fs s t r H Hr) as (H1 & H2 & H3). unfold mbind.
      destruct (o_train t r s) as [s1 x]. simpl in H1, H2, H3. subst x. destruct (IH _ _ _ _ H1) as (K1 & K2 & K3).
      split_and!; [|done|by rewrite K3]. rewrite <- app_assoc in K1. exact K1.
  Qed.

  (** One call, from the trainers it asks. *)
  Lemma agree_ask ts r s0 ds fs s : agree s0 ds fs s ->
    agree s0 (ds ++ List.filter (fun q => p_key p q.2 && bool_decide ((p_tok p q.2).2 = None)) ((fun t => (t, r)) <$> ts))
          (fs ++ match (if p_key p r && bool_decide ((p_tok p r).2 <> None) then head ts else None) with Some t => [t] | None => [] end)
          (mfor ts (fun t => o_train t r) s).1 /\
    (mfor ts (fun t => o_train t r) s).2 =
      match ts with
      | [] => Ok tt
      | _ :: _ => if p_key p r then match (p_tok p r).2 with None => Ok tt | Some e => Err e end else Err AttributeError
      end /\
    s_corpora (mfor ts (fun t => o_train t r) s).1 = s_corpora s.
  Proof.
    intros H.
    match goal with |- context [List.filter ?f ?l] =>
      assert (List.filter f l = if p_key p r && bool_decide ((p_tok p r).2 = None) then (fun t : watcher => (t, r)) <$> ts else []) as -> end.
    { clear H. induction ts as [|t ts IH]; [by destruct (p_key p r && _)|]. rewrite fmap_cons. cbn [List.filter fst snd]. rewrite IH. by destruct (p_key p r && _). }
    destruct (p_key p r) eqn:Hk; cbn [andb].
    - destruct ((p_tok p r).2) as [e|] eqn:Ht.
      + rewrite bool_decide_eq_false_2, bool_decide_eq_true_2, app_nil_r by done.
        destruct ts as [|t ts]; [by simpl; rewrite app_nil_r|]. simpl.
        destruct (agree_fail s0 ds fs s t r e H Hk Ht) as (H1 & H2 & H3). unfold mbind.
        destruct (o_train t r s) as [s1 x]. simpl in H1, H2, H3. subst x. done.
      + rewrite bool_decide_eq_true_2, bool_decide_eq_false_2, app_nil_r by (done || by intros []).
        destruct (agree_for ts r (conj Hk Ht) s0 ds fs s H) as (H1 & H2 & H3).
        split_and!; [done| |done]. rewrite H2. by destruct ts.
    - rewrite !app_nil_r. destruct ts as [|t ts]; [done|]. simpl. unfold mbind. by rewrite no_key by done.
  Qed.

  Lemma agree_corpora s0 ds fs s c : agree s0 ds fs s -> agree s0 ds fs (State c (s_class s) (s_label s)).
  Proof. done. Qed.

  Lemma failures_one x : failures p [x] =
    match (if p_key p (call_msg x) && bool_decide ((p_tok p (call_msg x)).2 <> None) then head (asked p x) else None) with
    | Some t => [t] | None => [] end.
  Proof. reflexivity. Qed.

  Lemma agree_call x s0 ds fs s : agree s0 ds fs s ->
    agree s0 (ds ++ trainings_done p [x]) (fs ++ failures p [x]) (run_ocall x s).1 /\
    (run_ocall x s).2 = call_result p x /\
    forall i, s_corpora (run_ocall x s).1 i = dict_step p i (s_corpora s i) x.
  Proof.
    intros H. rewrite failures_one. unfold trainings_done, requests. cbn [flat_map]. rewrite app_nil_r. unfold call_result.
    destruct x as [i r id emit|i r emit|t r]; cbn [ObserveModel.run_ocall call_msg].
    - unfold o_add, on_corpus. unfold mbind.
      set (s1 := State _ _ _). assert (agree s0 ds fs s1) as H1 by done.
      assert (forall j, s_corpora s1 j = dict_step p j (s_corpora s j) (OAdd i r id emit)) as HD.
      { intros j. unfold s1, set_at. simpl. destruct (decide (j = i)) as [->|]; [by rewrite decide_True; destruct id|by rewrite decide_False by congruence]. }
      destruct emit; cbn [asked].
      + unfold o_send. destruct (agree_ask (p_receivers p Added i) r s0 ds fs s1 H1) as (K1 & K2 & K3).
        split_and!; [done..|]. intros j. by rewrite K3.
      + simpl. rewrite !app_nil_r. split_and!; try done. by destruct (_ && _); rewrite app_nil_r.
    - unfold o_remove, on_corpus. unfold mbind.
      set (s1 := State _ _ _). assert (agree s0 ds fs s1) as H1 by done.
      assert (forall j, s_corpora s1 j = dict_step p j (s_corpora s j) (ORemove i r emit)) as HD.
      { intros j. unfold s1, set_at. simpl. destruct (decide (j = i)) as [->|]; [by rewrite decide_True|by rewrite decide_False by congruence]. }
      destruct emit; cbn [asked].
      + unfold o_send. destruct (agree_ask (p_receivers p Removed i) r s0 ds fs s1 H1) as (K1 & K2 & K3).
        split_and!; [done..|]. intros j. by rewrite K3.
      + simpl. rewrite !app_nil_r. split_and!; try done. by destruct (_ && _); rewrite app_nil_r.
    - destruct (agree_ask [t] r s0 ds fs s H) as (K1 & K2 & K3). cbn [mfor asked] in *. unfold mbind in *.
      destruct (o_train t r s) as [s1 [[]|e]]; simpl in *; split_and!; try done; intros i; by rewrite K3.
  Qed.

  Lemma agree_calls xs : forall s0 ds fs s, agree s0 ds fs s ->
    agree s0 (ds ++ trainings_done p xs) (fs ++ failures p xs) (run_ocalls xs s).1 /\
    (run_ocalls xs s).2 = call_result p <$> xs /\
    forall i, s_corpora (run_ocalls xs s).1 i = foldl (dict_step p i) (s_corpora s i) xs.
  Proof.
    induction xs as [|x xs IH]; intros s0 ds fs s H; cbn [ObserveModel.run_ocalls].
    - unfold trainings_done, failures; simpl. rewrite !app_nil_r. done.
    - destruct (agree_call x s0 ds fs s H) as (H1 & H2 & H3). destruct (run_ocall x s) as [s1 y]. simpl in H1, H2, H3. subst y.
      destruct (IH _ _ _ _ H1) as (K1 & K2 & K3). destruct (run_ocalls xs s1) as [s2 ys]. simpl in K1, K2, K3. cbn [fst snd].
      rewrite <- !app_assoc in K1. split_and!.
      + assert (trainings_done p (x :: xs) = trainings_done p [x] ++ trainings_done p xs) as ->
          by (unfold trainings_done, requests; cbn [flat_map]; by rewrite app_nil_r, List.filter_app).
        assert (failures p (x :: xs) = failures p [x] ++ failures p xs) as ->
          by (unfold failures; change (x :: xs) with ([x] ++ xs); by rewrite omap_app).
        exact K1.
      + by rewrite K2.
      + intros i. by rewrite K3, H3.
  Qed.

  Lemma observe_results xs (s : state) : (forall j, o_bigrams (s_class s j) <> None) ->
    (run_ocalls xs s).2 = call_result p <$> xs.
  Proof. intros H. by apply (agree_calls xs s [] [] s (agree_refl s H)). Qed.

  Lemma observe_corpora xs (s : state) i : (forall j, o_bigrams (s_class s j) <> None) ->
    s_corpora (run_ocalls xs s).1 i = foldl (dict_step p i) (s_corpora s i) xs.
  Proof. intros H. by apply (agree_calls xs s [] [] s (agree_refl s H)). Qed.

  Lemma observe_labels xs (s : state) r : (forall j, o_bigrams (s_class s j) <> None) ->
    s_label (run_ocalls xs s).1 r = match last (labels_given p r xs) with Some b => Some b | None => s_label s r end.
  Proof. intros H. by apply (agree_calls xs s [] [] s (agree_refl s H)). Qed.

  Lemma observe_classifiers xs (s : state) j : (forall j, o_bigrams (s_class s j) <> None) ->
    let o := s_class (run_ocalls xs s).1 j in
    let good := (run mem_backend it (lessons p j xs) (s_class s j)).1 in
    o_store o = o_store good /\
    o_nspam o = (o_nspam good + failed_lessons p j true xs)%Z /\
    o_nham o = (o_nham good + failed_lessons p j false xs)%Z.
  Proof. intros H. destruct (agree_calls xs s [] [] s (agree_refl s H)) as ((H1 & _) & _). destruct (H1 j) as (_ & _ & K1 & K2 & K3). done. Qed.

  (** ** Train and untrain called directly *)

  Lemma train_untrain t r (s : state) : wf_obj (s_class s (t_class t)) -> o_bigrams (s_class s (t_class t)) <> None -> trainable p r ->
    exists s1 s2, o_train t r s = (s1, Ok tt) /\ o_untrain mem_backend it p t r s1 = (s2, Ok tt) /\
      s_label s1 r = Some (t_spam t) /\ s_label s2 r = None /\
      (forall r', r' <> r -> s_label s2 r' = s_label s r') /\
      same_training (s_class s2 (t_class t)) (s_class s (t_class t)) /\
      (forall j, j <> t_class t -> s_class s2 j = s_class s j) /\ s_corpora s2 = s_corpora s.
  Proof.
    intros Hwf HB [Hk Ht]. destruct (o_bigrams _) as [bg|] eqn:E; [|done].
    destruct (p_tok p r) as [ws e] eqn:Etok. simpl in Ht. subst e.
    destruct (learn_unlearn it Hit (SIter ws) (t_spam t) _ bg Hwf E) as (o1 & o2 & H1 & H2 & H3).
    unfold ObserveModel.o_train, o_untrain. rewrite Hk, Etok. unfold mbind, on_class. rewrite learn_gen_ok, H1. simpl.
    eexists _, _. split; [done|]. simpl. rewrite set_at_eq, unlearn_gen_ok, H2. simpl. split; [done|]. simpl.
    rewrite !set_at_eq. split_and!; try done.
    - intros r' Hr. by rewrite !set_at_ne.
    - intros j Hj. by rewrite !set_at_ne.
  Qed.

  Lemma train_untrain_untokenizable t r e (s : state) :
    o_bigrams (s_class s (t_class t)) <> None -> (0 <= o_nspam (s_class s (t_class t)))%Z -> (0 <= o_nham (s_class s (t_class t)))%Z ->
    p_key p r = true -> (p_tok p r).2 = Some e ->
    exists s1 s2, o_train t r s = (s1, Err e) /\ o_untrain mem_backend it p t r s1 = (s2, Err e) /\
      s_label s1 = s_label s /\ s_label s2 = s_label s /\
      total_of (t_spam t) (s_class s1 (t_class t)) = (total_of (t_spam t) (s_class s (t_class t)) + 1)%Z /\
      same_training (s_class s2 (t_class t)) (s_class s (t_class t)).
  Proof.
    intros HB Hs Hh Hk Ht. destruct (p_tok p r) as [ws e'] eqn:Etok. simpl in Ht. subst e'.
    unfold ObserveModel.o_train, o_untrain. rewrite Hk, Etok. unfold mbind, on_class.
    destruct (learn_gen_raises mem_backend it ws e (t_spam t) _ HB) as (o1 & -> & H1 & H2 & H3 & H4 & _).
    destruct (unlearn_gen_raises mem_backend it ws e (t_spam t) o1) as (o2 & e2 & KU & K1 & K2 & _ & _ & K4); [by rewrite H4|].
    destruct K4 as (-> & K4 & K5); [destruct (t_spam t); lia|].
    eexists _, _. split; [done|]. simpl. rewrite set_at_eq, KU. split; [done|]. simpl. rewrite !set_at_eq.
    unfold same_training, total_of. rewrite K1, K2, K4, K5, H3, H4, H1, H2. split_and!; try done; destruct (t_spam t); lia.
  Qed.

  Lemma untrain_untrained t r (s : state) :
    o_bigrams (s_class s (t_class t)) <> None -> (total_of (t_spam t) (s_class s (t_class t)) <= 0)%Z -> p_key p r = true ->
    exists s', o_untrain mem_backend it p t r s = (s', Err ValueError) /\
      s_label s' = s_label s /\ s_corpora s' = s_corpora s /\ forall j, same_training (s_class s' j) (s_class s j).
  Proof.
    intros HB Hz Hk. unfold o_untrain. rewrite Hk. unfold mbind, on_class.
    assert (exists o', unlearn_gen mem_backend it (p_tok p r) (t_spam t) (s_class s (t_class t)) = (o', Err ValueError) /\
                       same_training o' (s_class s (t_class t))) as (o' & -> & HO).
    { destruct (p_tok p r) as [ws [e|]].
      - destruct (unlearn_gen_raises mem_backend it ws e (t_spam t) _ HB) as (o2 & e2 & -> & K1 & K2 & _ & K4 & _).
        destruct K4 as (-> & K4 & K5); [done|]. by exists o2.
      - destruct (o_bigrams (s_class s (t_class t))) as [bg|] eqn:E; [|done].
        rewrite unlearn_gen_ok, (unlearn_mem_zero it (SIter ws) (t_spam t) bg _ E Hz). eexists. split; [done|]. by rewrite <- E. }
    eexists. split; [done|]. simpl. split_and!; try done. intros j. destruct (decide (j = t_class t)) as [->|Hj].
    - by rewrite set_at_eq.
    - rewrite set_at_ne by done. by repeat split.
  Qed.

  (** ** Moving a message to another corpus *)

  Lemma count_bump b b' r : count b (Some (bump b' (default wi_new r))) = (count b r + if eqb b b' then 1 else 0)%Z.
  Proof. destruct b, b', r as [[]|]; simpl; lia. Qed.

  Lemma learn_counts ws b bg (o : mobj) : o_bigrams o = Some bg ->
    let o' := (learn mem_backend it (SIter ws) b o).1 in
    o_bigrams o' = Some bg /\ (forall b', total_of b' o' = total_of b' o + if eqb b' b then 1 else 0)%Z /\
    forall b' w, tokens_of bg (SIter ws) w -> count b' (o_store o' !! w) = (count b' (o_store o !! w) + if eqb b' b then 1 else 0)%Z.
  Proof.
    intros E. destruct (learn_mem it Hit (SIter ws) b bg o E) as (m & -> & Hm). simpl. split_and!; [done| |].
    - intros []; destruct b; simpl; lia.
    - intros b' w Hw. rewrite Hm, bool_decide_eq_true_2 by (by apply toks_spec). apply count_bump.
  Qed.

  Lemma move_message i j r (tham tspam : watcher) bg (s : state) :
    t_spam tham = false -> t_spam tspam = true -> t_class tham = t_class tspam ->
    p_receivers p Added i = [tham] -> p_receivers p Removed i = [tham] -> p_receivers p Added j = [tspam] ->
    o_bigrams (s_class s (t_class tspam)) = Some bg -> trainable p r ->
    let s' := (run_ocalls [OAdd i r None true; ORemove i r true; OAdd j r None true] s).1 in
    let o := s_class s (t_class tspam) in let o' := s_class s' (t_class tspam) in
    s_label s' r = Some true /\
    total_of true o' = (total_of true o + 1)%Z /\ total_of false o' = (total_of false o + 2)%Z /\
    forall w, tokens_of bg (SIter (p_tok p r).1) w ->
      count true (o_store o' !! w) = (count true (o_store o !! w) + 1)%Z /\
      count false (o_store o' !! w) = (count false (o_store o !! w) + 2)%Z.
  Proof.
    intros Hh Hs Hc R1 R2 R3 HB [Hk Ht]. destruct (p_tok p r) as [ws e] eqn:Etok. simpl in Ht. subst e.
    cbv zeta. set (o := s_class s (t_class tspam)) in *.
    cbn [ObserveModel.run_ocalls ObserveModel.run_ocall]. unfold o_add, o_remove, o_send, on_corpus, mbind. rewrite R1, R2, R3.
    cbn [mfor]. unfold ObserveModel.o_train. rewrite Hk, Etok, Hh, Hs, Hc. unfold mbind, on_class, remember. cbn [s_class s_corpora s_label].
    change (s_class s (t_class tspam)) with o. rewrite learn_gen_ok.
    destruct (learn_shift (SIter ws) false o o) as (_ & _ & L1 & _); [by rewrite HB|done..|].
    destruct (learn_counts ws false bg o HB) as (B1 & T1 & C1).
    destruct (learn mem_backend it (SIter ws) false o) as [o1 x1]. simpl in L1, B1, T1, C1. subst x1. simpl.
    rewrite set_at_eq, learn_gen_ok.
    destruct (learn_shift (SIter ws) false o1 o1) as (_ & _ & L2 & _); [by rewrite B1|done..|].
    destruct (learn_counts ws false bg o1 B1) as (B2 & T2 & C2).
    destruct (learn mem_backend it (SIter ws) false o1) as [o2 x2]. simpl in L2, B2, T2, C2. subst x2. simpl.
    rewrite set_at_eq, learn_gen_ok.
    destruct (learn_shift (SIter ws) true o2 o2) as (_ & _ & L3 & _); [by rewrite B2|done..|].
    destruct (learn_counts ws true bg o2 B2) as (B3 & T3 & C3).
    destruct (learn mem_backend it (SIter ws) true o2) as [o3 x3]. simpl in L3, B3, T3, C3. subst x3. simpl.
    rewrite !set_at_eq. pose proof (T1 true). pose proof (T1 false). pose proof (T2 true). pose proof (T2 false).
    pose proof (T3 true). pose proof (T3 false). simpl in *. split_and!; [done|lia|lia|]. intros w Hw. rewrite !C3, !C2, !C1 by done. cbn [eqb]. lia.
  Qed.
End observe.

(** ** Removing a message does not make it untrained *)

Definition one_letter : program := Program (fun _ => Some []) (fun _ => true) (fun _ => ([WNone], None)) (fun _ _ => [Watcher 0 true]).

Lemma removed_stays_trained (A : num) : ~ forall it p (s : state A (gmap pyword winfo)) i r t,
  set_order_ok it -> trainable p r -> p_receivers p Added i = [t] -> p_receivers p Removed i = [t] ->
  (forall j, o_bigrams (s_class s j) <> None) ->
  s_label (run_ocalls mem_backend it p [OAdd i r None true; ORemove i r true] s).1 r = None.
Proof.
  intros H. specialize (H (fun l => remove_dups l) one_letter (State (fun _ => ∅) (fun _ => c_new false ∅) (fun _ => None)) 0 0 (Watcher 0 true)).
  assert (set_order_ok (fun l => remove_dups l)) as Hit by (intros l; split; [apply NoDup_remove_dups|intros w; apply elem_of_remove_dups]).
  specialize (H Hit (conj eq_refl eq_refl) eq_refl eq_refl). rewrite (observe_labels _ Hit) in H by done. by specialize (H (fun _ => ltac:(done))).
Qed.
