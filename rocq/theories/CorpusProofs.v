(** * Lemmas about corpora, trainers and expiry *)
From Coq Require Import Lia.
From Verif Require Import Py NumModel ClassifierModel TrainSpec TrainProofs CacheModel CacheSpec CacheProofs
  CorpusModel CorpusSpec.

Section proofs.
  Context {C T : Type} (em : emailpkg C).
  Context {A : num} {St : Type} (bk : backend St) (it : set_order).
  Context (tok : msg C T -> list pyword).
  Notation msg := (msg C T).
  Notation cache := (cache msg).
  Notation cop := (@cop C T).
  Notation world := (world C T A St).
  Notation train := (train bk it tok).
  Notation send := (send bk it tok).
  Notation add_message := (add_message em bk it tok).
  Notation remove_message := (remove_message bk it tok).
  Notation run_cop := (run_cop em bk it tok).
  Notation run_cops := (run_cops em bk it tok).
  Implicit Types (w : world) (c : cache) (m : msg) (xs : list cop) (ts : list trainer).

  Lemma train_keeps t m w : w_corpora (fst (train t m w)) = w_corpora w /\ w_sent (fst (train t m w)) = w_sent w.
  Proof. unfold CorpusModel.train. destruct (m_has_key m); [|done]. by destruct (learn _ _ _ _ _). Qed.

  Lemma mfor_train_keeps ts m w : let w' := fst (mfor ts (fun t => train t m) w) in
    w_corpora w' = w_corpora w /\ w_sent w' = w_sent w.
  Proof.
    cbv zeta. revert w. induction ts as [|t ts IH]; intros w; [done|]. cbn [mfor]. unfold mbind.
    pose proof (train_keeps t m w) as [H1 H2]. destruct (train t m w) as [w' [[]|e]]; cbn [fst] in *; [|done].
    destruct (IH w') as [H3 H4]. by rewrite H3, H4.
  Qed.

  Lemma send_keeps ts s i m w : let w' := fst (send ts s i m w) in
    w_corpora w' = w_corpora w /\ w_sent w' = w_sent w ++ [(s, i, m)].
  Proof. cbv zeta. unfold CorpusModel.send. apply (mfor_train_keeps _ m (w_log s i m w)). Qed.

  (** A corpus with an unlimited in-memory cache. *)
  Definition plain c (d : gmap codes codes) (mm : gmap key msg) : Prop :=
    k_class c = Naive /\ k_max c = None /\ k_dir c = d /\ k_data c = mm.

  Lemma plain_put c d mm k m : plain c d mm ->
    exists c', k_put em k m c = (c', Ok tt) /\ plain c' d (<[k := m]> mm).
  Proof.
    intros (Hc&Hm&Hd&Hmm). unfold k_put. rewrite Hc. unfold naive_put. cbn [k_max]. rewrite Hm.
    eexists. split; [done|]. unfold plain. cbn. by subst.
  Qed.

  Lemma plain_pop c d mm k : plain c d mm ->
    exists c' r, k_pop k c = (c', Ok r) /\ plain c' d (delete k mm).
  Proof.
    intros (Hc&Hm&Hd&Hmm). unfold k_pop. rewrite Hc. unfold naive_pop. do 2 eexists. split; [done|].
    unfold plain. cbn. by subst.
  Qed.

  Lemma plain_holds c d mm : plain c d mm -> holds em c mm.
  Proof.
    intros (Hc&Hm&Hd&Hmm). unfold holds, k_getitem, k_len, k_keyset. rewrite Hc, Hmm. split_and!; done.
  Qed.

  Definition plain_world (ds : list (gmap codes codes)) (mms : list (gmap key msg)) w : Prop :=
    Forall3 (fun d mm c => plain c d mm) ds mms (w_corpora w).

  Definition emits (x : cop) : list (sig * nat * msg) :=
    match x with
    | CAdd i m _ true => [(Added, i, m)]
    | CRemove i m true => [(Removed, i, m)]
    | _ => []
    end.

  Lemma signals_cons x xs : signals (x :: xs) = emits x ++ signals xs.
  Proof. by destruct x as [?? ? []|?? []]. Qed.

  Lemma signals_app xs ys : signals (xs ++ ys) = signals xs ++ signals ys.
  Proof. unfold signals. apply omap_app. Qed.

  (** The world after one call, all corpora being plain. *)
  Definition plain_at w i d mm : Prop := exists c, w_corpora w !! i = Some c /\ plain c d mm.

  Definition op_index (x : cop) : nat := match x with CAdd i _ _ _ | CRemove i _ _ => i end.

  Lemma run_cop_plain ts x w d mm : plain_at w (op_index x) d mm ->
    let w' := fst (run_cop ts x w) in
    plain_at w' (op_index x) d (contents_step (op_index x) mm x) /\
    (forall j, j <> op_index x -> w_corpora w' !! j = w_corpora w !! j) /\
    w_sent w' = w_sent w ++ emits x.
  Proof.
    intros (c&Hi&Hp). cbv zeta. pose proof (lookup_lt_Some _ _ _ Hi) as Hlt.
    destruct x as [i m id e|i m e]; cbn [CorpusModel.run_cop op_index contents_step] in *.
    - destruct (plain_put c d mm (key_of m id) m Hp) as (c'&E&Hp').
      unfold CorpusModel.add_message. fold (key_of m id).
      change (match id with Some s => Some s | None => m_id m end) with (key_of m id).
      unfold mbind, on_cache. rewrite Hi, E. rewrite decide_True by done.
      assert (plain_at (w_set_cache i c' w) i d (<[key_of m id:=m]> mm)) as Hat.
      { exists c'. split; [|done]. cbn [w_set_cache w_corpora]. by apply list_lookup_insert. }
      assert (forall j, j <> i -> w_corpora (w_set_cache i c' w) !! j = w_corpora w !! j) as Hne.
      { intros j Hj. cbn. by rewrite list_lookup_insert_ne. }
      destruct e; cbn [emits].
      + destruct (send_keeps ts Added i m (w_set_cache i c' w)) as [H1 H2]. cbv zeta in H1, H2.
        unfold plain_at. rewrite H1, H2. split_and!; done.
      + unfold mret. cbn [fst]. rewrite app_nil_r. split_and!; done.
    - destruct (plain_pop c d mm (m_id m) Hp) as (c'&r&E&Hp').
      unfold CorpusModel.remove_message. unfold mbind, on_cache. rewrite Hi, E. rewrite decide_True by done.
      assert (plain_at (w_set_cache i c' w) i d (delete (m_id m) mm)) as Hat.
      { exists c'. split; [|done]. cbn [w_set_cache w_corpora]. by apply list_lookup_insert. }
      assert (forall j, j <> i -> w_corpora (w_set_cache i c' w) !! j = w_corpora w !! j) as Hne.
      { intros j Hj. cbn. by rewrite list_lookup_insert_ne. }
      destruct e; cbn [emits].
      + destruct (send_keeps ts Removed i m (w_set_cache i c' w)) as [H1 H2]. cbv zeta in H1, H2.
        unfold plain_at. rewrite H1, H2. split_and!; done.
      + unfold mret. cbn [fst]. rewrite app_nil_r. split_and!; done.
  Qed.

  Lemma contents_snoc i xs x : contents i (xs ++ [x]) = contents_step i (contents i xs) x.
  Proof. unfold contents. by rewrite foldl_app. Qed.

  Lemma contents_step_other i mm x : op_index x <> i -> contents_step i mm x = mm.
  Proof. destruct x; cbn; intros H; by rewrite decide_False. Qed.

  Lemma run_cops_snoc ts xs x w : run_cops ts (xs ++ [x]) w = fst (run_cop ts x (run_cops ts xs w)).
  Proof. unfold CorpusModel.run_cops. by rewrite foldl_app. Qed.

  Lemma run_cops_plain ts xs w : fresh_world w -> Forall (in_range (length (w_corpora w))) xs ->
    let w' := run_cops ts xs w in
    (forall i c, w_corpora w !! i = Some c -> plain_at w' i (k_dir c) (contents i xs)) /\
    w_sent w' = w_sent w ++ signals xs.
  Proof.
    intros Hf. cbv zeta. induction xs as [|x xs IH] using rev_ind; intros Hr.
    - split; [|by rewrite app_nil_r]. intros i c Hi. exists c. split; [done|].
      destruct (Hf i c Hi) as [d ->]. unfold plain. by split_and!.
    - apply Forall_app in Hr as [Hr Hx]. apply Forall_cons_1 in Hx as [Hx _]. destruct (IH Hr) as [H1 H2].
      rewrite run_cops_snoc.
      assert (is_Some (w_corpora w !! op_index x)) as [c Hc].
      { apply lookup_lt_is_Some_2. destruct x; done. }
      destruct (run_cop_plain ts x (run_cops ts xs w) _ _ (H1 _ _ Hc)) as (H3&H4&H5). split.
      + intros i c' Hi. rewrite contents_snoc. destruct (decide (i = op_index x)) as [->|Hne].
        * assert (c' = c) as -> by congruence. done.
        * rewrite contents_step_other by done. destruct (H1 _ _ Hi) as (c2&Hc2&Hp). exists c2.
          rewrite H4 by done. done.
      + rewrite H5, H2, signals_app, <- app_assoc. cbn [signals omap list_omap].
        destruct x as [?? ? []|?? []]; done.
  Qed.

  (** C43 *)
  Lemma corpus_history ts xs w i c : fresh_world w -> Forall (in_range (length (w_corpora w))) xs ->
    w_corpora w !! i = Some c -> let w' := run_cops ts xs w in
    (exists c', w_corpora w' !! i = Some c' /\ holds em c' (contents i xs)) /\
    w_sent w' = w_sent w ++ signals xs.
  Proof.
    intros Hf Hr Hi. cbv zeta. destruct (run_cops_plain ts xs w Hf Hr) as [H1 H2]. split; [|done].
    destruct (H1 i c Hi) as (c'&Hc'&Hp). exists c'. split; [done|]. by eapply plain_holds.
  Qed.

  (** C39 *)
  Lemma empty_cache_ignored c d : k_len c = 0 -> corpus_new (Some c) d = naive_new None (k_dir c).
  Proof. intros H. unfold corpus_new, k_bool. by rewrite H. Qed.

  Lemma ignored_history ts xs c (o : obj A St) : k_len c = 0 -> Forall (in_range 1) xs ->
    let w := run_cops ts xs (World [corpus_new (Some c) (k_dir c)] o []) in
    exists c', w_corpora w !! 0 = Some c' /\ holds em c' (contents 0 xs) /\ k_dir c' = k_dir c.
  Proof.
    intros Hl Hr. cbv zeta.
    destruct (run_cops_plain ts xs (World [corpus_new (Some c) (k_dir c)] o [])) as [H1 _].
    - intros [|i] c' Hi; [|done]. exists (k_dir c).
      rewrite <- (empty_cache_ignored c (k_dir c)) by done. symmetry. by apply (inj Some).
    - done.
    - destruct (H1 0 _ eq_refl) as (c'&Hc'&Hp). exists c'. split_and!; [done|by eapply plain_holds|].
      destruct Hp as (_&_&Hd&_). rewrite Hd, empty_cache_ignored by done. done.
  Qed.

  Lemma file_corpus_ignored ts xs matches size d (o : obj A St) : message_files matches d = ∅ -> Forall (in_range 1) xs ->
    let w := run_cops ts xs (World [file_corpus_new matches size d] o []) in
    exists c', w_corpora w !! 0 = Some c' /\ holds em c' (contents 0 xs) /\ k_dir c' = d.
  Proof.
    intros Hd. apply (ignored_history ts xs (file_new matches size d) o). unfold k_len, file_new. cbn [k_class].
    by rewrite Hd, size_empty.
  Qed.

  Lemma nonempty_cache_used c d : k_len c <> 0 -> corpus_new (Some c) d = c.
  Proof. intros H. unfold corpus_new, k_bool. destruct (k_len c =? 0) eqn:E; [|done]. apply Nat.eqb_eq in E. done. Qed.

  (** Removing under the message's own id. *)
  Lemma explicit_id_stays ts w i c m s : fresh_world w -> w_corpora w !! i = Some c -> m_id m <> Some s ->
    let w' := run_cops ts [CAdd i m (Some s) true; CRemove i m true] w in
    (exists c', w_corpora w' !! i = Some c' /\ k_getitem em c' (Some s) = Ok m) /\
    w_sent w' = w_sent w ++ [(Added, i, m); (Removed, i, m)].
  Proof.
    intros Hf Hi Hne. pose proof (lookup_lt_Some _ _ _ Hi) as Hlt.
    destruct (corpus_history ts [CAdd i m (Some s) true; CRemove i m true] w i c Hf) as [(c'&Hc'&Hh) Hs].
    { repeat constructor; done. } { done. }
    cbv zeta. split; [|done]. exists c'. split; [done|]. destruct Hh as [Hg _]. rewrite Hg.
    unfold contents. cbn [foldl contents_step key_of]. rewrite !decide_True by done.
    rewrite lookup_delete_ne by done. by rewrite lookup_insert.
  Qed.

  (** C44: messages of the package's class *)
  Lemma package_message ts i m id w c : fresh_world w -> w_corpora w !! i = Some c -> m_has_key m = false ->
    (exists t, t ∈ ts /\ i ∈ t_corpora t) ->
    (let '(w', r) := add_message ts i m id true w in
       r = Err AttributeError /\ w_class w' = w_class w /\
       exists c', w_corpora w' !! i = Some c' /\ k_getitem em c' (key_of m id) = Ok m) /\
    (let '(w', r) := remove_message ts i m true w in
       r = Err AttributeError /\ w_class w' = w_class w).
  Proof.
    intros Hf Hi Hk (t&Ht&Hit). destruct (Hf _ _ Hi) as [d ->]. pose proof (lookup_lt_Some _ _ _ Hi) as Hlt.
    assert (forall s w0, send ts s i m w0 = (w_log s i m w0, Err AttributeError)) as Hsend.
    { intros s w0. unfold CorpusModel.send.
      destruct (filter _ ts) as [|t0 ts0] eqn:E.
      - exfalso. assert (t ∈ filter (fun t => i ∈ t_corpora t) ts) as Hin by (apply elem_of_list_filter; done).
        rewrite E in Hin. by apply elem_of_nil in Hin.
      - cbn [mfor]. unfold mbind, CorpusModel.train. by rewrite Hk. }
    assert (plain (naive_new None d : cache) d ∅) as Hp by done. split.
    - destruct (plain_put _ d ∅ (key_of m id) m Hp) as (c'&E&Hp').
      unfold CorpusModel.add_message.
      change (match id with Some s => Some s | None => m_id m end) with (key_of m id).
      unfold mbind, on_cache. rewrite Hi, E, Hsend. split_and!; [done|done|]. exists c'. cbn [w_log w_set_cache w_corpora].
      split; [by apply list_lookup_insert|]. destruct (plain_holds _ _ _ Hp') as [Hg _]. rewrite Hg. by rewrite lookup_insert.
    - destruct (plain_pop _ d ∅ (m_id m) Hp) as (c'&r&E&Hp').
      unfold CorpusModel.remove_message. unfold mbind, on_cache. rewrite Hi, E, Hsend. done.
  Qed.

  (** C65 *)
  Lemma from_disk_not_removable ts i w c matches n f m : w_corpora w !! i = Some c ->
    k_class c = File matches n -> k_data c !! Some f = None -> k_getitem em c (Some f) = Ok m ->
    m_id m = None /\
    forall emit, let '(w', r) := remove_message ts i m emit w in
      r = Err TypeError /\ w_class w' = w_class w /\ w_sent w' = w_sent w /\
      exists c', w_corpora w' !! i = Some c' /\ k_dir c' = k_dir c /\ k_keyset c' = k_keyset c.
  Proof.
    intros Hi Hc Hd Hg. pose proof (lookup_lt_Some _ _ _ Hi) as Hlt. unfold k_getitem in Hg. rewrite Hd, Hc in Hg.
    assert (m_id m = None) as Hid.
    { destruct (k_dir c !! f); [|done]. destruct (matches f); [|done]. by injection Hg as <-. }
    split; [done|]. intros emit. unfold CorpusModel.remove_message. rewrite Hid.
    unfold mbind, on_cache. rewrite Hi. unfold k_pop. rewrite Hc. unfold file_pop, mbind, naive_pop.
    cbn [fst]. split_and!; [done|done|done|]. eexists. cbn [w_set_cache w_corpora].
    split; [by apply list_lookup_insert|]. unfold k_keyset. cbn [k_dir k_class]. by rewrite Hc.
  Qed.
End proofs.

(** ** Training *)
Section training.
  Context {C T : Type} (em : emailpkg C).
  Context {A : num} (it : set_order) (it_ok : set_order_ok it).
  Context (tok : msg C T -> list pyword).
  Notation msg := (msg C T).
  Notation mstore := (gmap pyword winfo).
  Notation world := (world C T A mstore).
  Notation mb := mem_backend.
  Implicit Types (w : world) (ts : list trainer) (xs : list (@cop C T)).

  Lemma run_app_fst cs ds (o : obj A mstore) :
    fst (run mb it (cs ++ ds) o) = fst (run mb it ds (fst (run mb it cs o))).
  Proof.
    rewrite run_app. destruct (run mb it cs o) as [o1 r1]. cbn [fst].
    by destruct (run mb it ds o1).
  Qed.

  Lemma train_ok t (m : msg) w : m_has_key m = true -> is_Some (o_bigrams (w_class w)) ->
    exists o', train mb it tok t m w = (w_set_class o' w, Ok tt) /\
      o' = fst (run mb it [CLearn (SIter (tok m)) (t_spam t)] (w_class w)) /\ o_bigrams o' = o_bigrams (w_class w) /\
      forall b, total_of b o' = (total_of b (w_class w) + if eqb b (t_spam t) then 1 else 0)%Z.
  Proof.
    intros Hk [bg Hbg]. unfold train. rewrite Hk.
    destruct (learn_mem it it_ok (SIter (tok m)) (t_spam t) bg (w_class w) Hbg) as (m'&E&_).
    unfold run, run_call. rewrite E. eexists. split_and!; [done|done|done|].
    intros b. unfold total_of. cbn [o_nspam o_nham]. destruct b, (t_spam t); cbn [eqb]; lia.
  Qed.

  Lemma mfor_train ts (m : msg) w : m_has_key m = true -> is_Some (o_bigrams (w_class w)) ->
    let cs := (fun t => CLearn (SIter (tok m)) (t_spam t)) <$> ts in
    exists o', mfor ts (fun t => train mb it tok t m) w = (w_set_class o' w, Ok tt) /\
      o' = fst (run mb it cs (w_class w)) /\ o_bigrams o' = o_bigrams (w_class w) /\
      forall b, total_of b o' = (total_of b (w_class w) + learns b cs)%Z.
  Proof.
    intros Hk. cbv zeta. revert w. induction ts as [|t ts IH]; intros w Hbg.
    - exists (w_class w). cbn [mfor]. split_and!; [by destruct w|done|done|]. intros b. cbn. lia.
    - destruct (train_ok t m w Hk Hbg) as (o1&E1&Ho1&Hb1&Ht1).
      destruct (IH (w_set_class o1 w)) as (o2&E2&Ho2&Hb2&Ht2). { cbn [w_class w_set_class]. by rewrite Hb1. }
      exists o2. cbn [mfor]. unfold mbind. rewrite E1, E2. split_and!; [done| | |].
      + rewrite fmap_cons. change (?x :: ?l) with ([x] ++ l). rewrite run_app_fst, <- Ho1. done.
      + rewrite Hb2. cbn [w_class w_set_class]. done.
      + intros b. rewrite Ht2. cbn [w_class w_set_class]. rewrite Ht1, fmap_cons. cbn [learns]. lia.
  Qed.

  Lemma trainings_snoc ts xs x : trainings tok ts (xs ++ [x]) = trainings tok ts xs ++ trainings tok ts [x].
  Proof. unfold trainings. by rewrite signals_app, flat_map_app. Qed.

  Lemma learns_app b cs ds : learns b (cs ++ ds) = (learns b cs + learns b ds)%Z.
  Proof. induction cs as [|[]]; cbn; lia. Qed.

  Lemma run_cop_train ts x w d mm : plain_at w (op_index x) d mm -> m_has_key (cop_msg x) = true ->
    is_Some (o_bigrams (w_class w)) ->
    let w' := fst (run_cop em mb it tok ts x w) in
    snd (run_cop em mb it tok ts x w) = Ok tt /\
    w_class w' = fst (run mb it (trainings tok ts [x]) (w_class w)) /\ o_bigrams (w_class w') = o_bigrams (w_class w) /\
    forall b, total_of b (w_class w') = (total_of b (w_class w) + learns b (trainings tok ts [x]))%Z.
  Proof.
    intros (c&Hi&Hp) Hk Hbg. cbv zeta.
    assert (exists c' s, run_cop em mb it tok ts x w =
      match emits x with
      | [] => (w_set_cache (op_index x) c' w, Ok tt)
      | _ => send mb it tok ts s (op_index x) (cop_msg x) (w_set_cache (op_index x) c' w)
      end) as (c'&s&->).
    { destruct x as [i m id e|i m e]; cbn [run_cop op_index cop_msg] in *.
      - destruct (plain_put em c d mm (key_of m id) m Hp) as (c'&E&_). exists c', Added.
        unfold add_message. change (match id with Some s => Some s | None => m_id m end) with (key_of m id).
        unfold mbind, on_cache. rewrite Hi, E. by destruct e.
      - destruct (plain_pop c d mm (m_id m) Hp) as (c'&r&E&_). exists c', Removed.
        unfold remove_message. unfold mbind, on_cache. rewrite Hi, E. by destruct e. }
    assert (trainings tok ts [x] = match emits x with [] => [] | _ =>
      (fun t => CLearn (SIter (tok (cop_msg x))) (t_spam t)) <$> filter (fun t => op_index x ∈ t_corpora t) ts end) as ->.
    { unfold trainings. destruct x as [i m id []|i m []]; cbn [signals omap list_omap flat_map emits op_index cop_msg];
        by rewrite ?app_nil_r. }
    destruct (emits x) as [|e es].
    - cbn [fst snd run]. split_and!; try done. intros b. cbn [learns w_class w_set_cache]. lia.
    - unfold send.
      destruct (mfor_train (filter (fun t => op_index x ∈ t_corpora t) ts) (cop_msg x)
        (w_log s (op_index x) (cop_msg x) (w_set_cache (op_index x) c' w)) Hk Hbg) as (o'&E&Ho&Hb&Ht).
      rewrite E. cbn [fst snd]. split_and!; done.
  Qed.

  Lemma every_signal_trains ts xs w : fresh_world w -> Forall (in_range (length (w_corpora w))) xs ->
    Forall (fun x => m_has_key (cop_msg x) = true) xs -> is_Some (o_bigrams (w_class w)) ->
    let o' := w_class (run_cops em mb it tok ts xs w) in
    o' = fst (run mb it (trainings tok ts xs) (w_class w)) /\
    (forall b, total_of b o' = (total_of b (w_class w) + learns b (trainings tok ts xs))%Z) /\
    o_bigrams o' = o_bigrams (w_class w).
  Proof.
    intros Hf. cbv zeta. induction xs as [|x xs IH] using rev_ind; intros Hr Hk Hbg.
    - split_and!; try done. intros b. cbn. lia.
    - apply Forall_app in Hr as [Hr Hx]. apply Forall_cons_1 in Hx as [Hx _].
      apply Forall_app in Hk as [Hk Hkx]. apply Forall_cons_1 in Hkx as [Hkx _].
      destruct (IH Hr Hk Hbg) as (H1&H2&H3). rewrite run_cops_snoc, trainings_snoc.
      destruct (run_cops_plain em mb it tok ts xs w Hf Hr) as [Hp _].
      assert (is_Some (w_corpora w !! op_index x)) as [c Hc].
      { apply lookup_lt_is_Some_2. destruct x; done. }
      destruct (run_cop_train ts x (run_cops em mb it tok ts xs w) _ _ (Hp _ _ Hc) Hkx) as (_&H4&H5&H6).
      { by rewrite H3. }
      rewrite run_app_fst, <- H1. split_and!; [done| |congruence].
      intros b. rewrite H6, H2, learns_app. lia.
  Qed.

  (** Adding and removing a message with one trainer. *)
  Lemma add_remove_trains_twice (m : msg) id b w c : fresh_world w -> w_corpora w !! 0 = Some c ->
    m_has_key m = true -> is_Some (o_bigrams (w_class w)) ->
    total_of b (w_class (run_cops em mb it tok [Trainer b [0]] [CAdd 0 m id true; CRemove 0 m true] w)) =
    (total_of b (w_class w) + 2)%Z.
  Proof.
    intros Hf Hi Hk Hbg. pose proof (lookup_lt_Some _ _ _ Hi) as Hlt.
    destruct (every_signal_trains [Trainer b [0]] [CAdd 0 m id true; CRemove 0 m true] w Hf) as (_&H&_).
    { repeat constructor; done. } { repeat constructor; done. } { done. }
    rewrite H. unfold trainings, signals. cbn [omap list_omap flat_map fst snd].
    assert (forall s : unit, filter (fun t => 0 ∈ t_corpora t) [Trainer b [0]] = [Trainer b [0]]) as E.
    { intros _. rewrite filter_cons_True by (cbn; left). done. }
    rewrite (E tt). destruct b; cbn; lia.
  Qed.
End training.

(** An arithmetic for the witness, which computes no probabilities. *)
Definition int_num : num := MkNum Z id (fun p _ => p) Z.add Z.sub Z.mul Z.div Z.div Z.opp Z.abs Z.ltb Z.eqb id id
  (fun x => (x, 0%Z)).

Lemma untrain_refuted :
  ~ forall (C T : Type) (em : emailpkg C) (A : num) it (tok : msg C T -> list pyword) ts m i
      (w : world C T A (gmap pyword winfo)),
    set_order_ok it -> fresh_world w -> m_has_key m = true -> is_Some (o_bigrams (w_class w)) ->
    same_training (w_class (run_cops em mem_backend it tok ts [CAdd i m None true; CRemove i m true] w)) (w_class w).
Proof.
  intros H. set (it := fun l : list pyword => elements (list_to_set l : gset pyword)).
  assert (set_order_ok it) as Hit.
  { intros l. unfold it. split; [apply NoDup_elements|]. intros w. by rewrite elem_of_elements, elem_of_list_to_set. }
  set (w := World [naive_new None ∅] (c_new false ∅) [] : world codes unit int_num (gmap pyword winfo)).
  assert (fresh_world w) as Hw by (intros [|i] c Hc; [injection Hc as <-; by exists ∅|done]).
  set (m := Msg (Some []) [] true None : msg codes unit).
  assert (is_Some (o_bigrams (w_class w))) as Hb by by exists false.
  specialize (H codes unit (EmailPkg codes id id) int_num it (fun _ => []) [Trainer true [0]] m 0 w Hit Hw eq_refl Hb).
  pose proof (add_remove_trains_twice (EmailPkg codes id id) it Hit (fun _ => []) m None true w _ Hw eq_refl eq_refl Hb) as H2.
  destruct H as (H&_). unfold total_of in H2. rewrite H in H2. done.
Qed.

(** ** Expiry *)
Section expiry.
  Context {C T : Type} (em : emailpkg C) (A : num).
  Context (stamp : T -> F A) (clock : nat -> F A).
  Notation msg := (msg C T).
  Notation expiry := (expiry C T A).
  Implicit Types (e : expiry) (ks : list key).

  Lemma loop_keeps ks n e : e_cache (fst (expire_loop em stamp clock n ks e)) = e_cache e /\
    e_before (fst (expire_loop em stamp clock n ks e)) = e_before e.
  Proof.
    revert n e. induction ks as [|k ks IH]; intros n e; [done|]. cbn [expire_loop].
    destruct (k_getitem em (e_cache e) k) as [m|x]; [|done]. destruct (m_stamp m) as [t|]; [|done].
    destruct (nlt A _ _); [done|].
    specialize (IH (S n) (if nlt A (nadd A (stamp t) (e_before e)) (e_due e)
      then e_set_due (nadd A (stamp t) (e_before e)) e else e)).
    destruct IH as [-> ->]. by destruct (nlt A _ _).
  Qed.

  Lemma expire_keeps ks e : e_cache (fst (remove_expired em stamp clock ks e)) = e_cache e.
  Proof.
    unfold remove_expired. destruct (nlt A _ _); [done|].
    by destruct (loop_keeps ks 2 (e_set_due (nadd A (clock 1) (e_before e)) e)) as [-> _].
  Qed.

  Lemma loop_outcome ks : forall n e, (forall k, k ∈ ks -> exists m, k_getitem em (e_cache e) k = Ok m) ->
    let '(e', r) := expire_loop em stamp clock n ks e in
    match r with
    | Ok _ => forall j k, ks !! j = Some k -> alive em stamp clock e n j k
    | Err x => exists j k m, ks !! j = Some k /\ (forall i k', i < j -> ks !! i = Some k' -> alive em stamp clock e n i k') /\
        k_getitem em (e_cache e) k = Ok m /\
        ((x = AttributeError /\ m_stamp m = None) \/
         (x = TypeError /\ exists t, m_stamp m = Some t /\
            nlt A (nadd A (stamp t) (e_before e)) (clock (n + j)) = true))
    end.
  Proof.
    induction ks as [|k ks IH]; intros n e Hks; [done|]. cbn [expire_loop].
    destruct (Hks k) as [m Hm]; [left|]. rewrite Hm. destruct (m_stamp m) as [t|] eqn:Et.
    2:{ exists 0, k, m. split_and!; [done| |done|by left]. intros i k' Hi. lia. }
    destruct (nlt A (nadd A (stamp t) (e_before e)) (clock n)) eqn:Elt.
    { exists 0, k, m. split_and!; [done|intros i k' Hi; lia|done|]. right. split; [done|]. exists t. by rewrite Nat.add_0_r. }
    set (e1 := if nlt A (nadd A (stamp t) (e_before e)) (e_due e) then e_set_due (nadd A (stamp t) (e_before e)) e else e).
    assert (e_cache e1 = e_cache e /\ e_before e1 = e_before e) as [Hc1 Hb1] by (unfold e1; destruct (nlt A (nadd A (stamp t) (e_before e)) (e_due e)); done).
    specialize (IH (S n) e1). rewrite Hc1 in IH. specialize (IH (fun k' Hk' => Hks k' (elem_of_list_further _ _ _ Hk'))).
    assert (alive em stamp clock e n 0 k) as H0 by (exists m, t; rewrite Nat.add_0_r; by split_and!).
    assert (forall i k', alive em stamp clock e1 (S n) i k' <-> alive em stamp clock e n (S i) k') as Hal.
    { intros i k'. unfold alive. rewrite Hc1, Hb1. by rewrite Nat.add_succ_r. }
    destruct (expire_loop em stamp clock (S n) ks e1) as [e' [u|x]].
    - intros [|j] k' Hj; cbn in Hj; [by injection Hj as <-|]. apply Hal. by apply IH.
    - destruct IH as (j&k'&m'&Hj&Hi&Hm'&H). exists (S j), k', m'. split_and!; [done| |done|].
      + intros [|i] k2 Hlt Hk2; cbn in Hk2; [by injection Hk2 as <-|]. apply Hal. apply Hi; [lia|done].
      + rewrite Hb1 in H. by rewrite Nat.add_succ_r.
  Qed.

  Lemma loop_due ks : total_num A -> forall n e e', expire_loop em stamp clock n ks e = (e', Ok tt) ->
    le A (e_due e') (e_due e) /\
    (forall k m t, k ∈ ks -> k_getitem em (e_cache e) k = Ok m -> m_stamp m = Some t ->
       le A (e_due e') (nadd A (stamp t) (e_before e))) /\
    (e_due e' = e_due e \/ exists k m t, k ∈ ks /\ k_getitem em (e_cache e) k = Ok m /\ m_stamp m = Some t /\
       e_due e' = nadd A (stamp t) (e_before e)).
  Proof.
    intros [_ Hirr Htr Htot]. assert (forall x y z, le A x y -> le A y z -> le A x z) as Hle.
    { unfold le. intros x y z H1 H2. destruct (nlt A z x) eqn:E; [|done]. exfalso.
      destruct (nlt A x y) eqn:Exy.
      - rewrite (Htr z x y E Exy) in H2. done.
      - assert (x = y) as -> by by apply Htot. congruence. }
    induction ks as [|k ks IH]; intros n e e' E.
    - cbn in E. injection E as <-. split_and!; [apply Hirr| |by left]. intros k m t Hk. by apply elem_of_nil in Hk.
    - cbn [expire_loop] in E. destruct (k_getitem em (e_cache e) k) as [m|] eqn:Em; [|done].
      destruct (m_stamp m) as [t|] eqn:Et; [|done]. destruct (nlt A _ (clock n)); [done|].
      destruct (nlt A (nadd A (stamp t) (e_before e)) (e_due e)) eqn:Elt.
      + destruct (IH _ _ _ E) as (H1&H2&H3). cbn [e_due e_set_due e_cache e_before] in H1, H2, H3. split_and!.
        * eapply Hle; [exact H1|]. unfold le. destruct (nlt A (e_due e) _) eqn:E2; [|done].
          pose proof (Htr _ _ _ Elt E2) as E3. by rewrite Hirr in E3.
        * intros k' m' t' Hk' Hm' Ht'. apply elem_of_cons in Hk' as [->|Hk']; [|by eapply H2].
          assert (m' = m) as -> by congruence. assert (t' = t) as -> by congruence. done.
        * right. destruct H3 as [->|(k'&m'&t'&Hk'&?&?&?)].
          -- exists k, m, t. split_and!; [left|done|done|done].
          -- exists k', m', t'. split_and!; [by right|done|done|done].
      + destruct (IH _ _ _ E) as (H1&H2&H3). split_and!; [done| |].
        * intros k' m' t' Hk' Hm' Ht'. apply elem_of_cons in Hk' as [->|Hk']; [|by eapply H2].
          assert (m' = m) as -> by congruence. assert (t' = t) as -> by congruence. eapply Hle; [exact H1|exact Elt].
        * destruct H3 as [->|(k'&m'&t'&Hk'&?&?&?)]; [by left|]. right.
          exists k', m', t'. split_and!; [by right|done|done|done].
  Qed.

  Lemma keyset_getitem (c : cache msg) k : k ∈ k_keyset c -> exists m, k_getitem em c k = Ok m.
  Proof.
    unfold k_keyset, k_getitem. destruct (k_class c) as [|matches n].
    - rewrite elem_of_dom. intros [m ->]. eauto.
    - rewrite elem_of_map. intros (f&->&Hf). apply elem_message_files in Hf as [Hm [b Hb]].
      destruct (k_data c !! Some f); [eauto|]. rewrite Hb, Hm. eauto.
  Qed.

  Lemma expire_outcome ks e : total_num A -> (forall k, k ∈ ks <-> k ∈ k_keyset (e_cache e)) ->
    let '(e', r) := remove_expired em stamp clock ks e in
    e_cache e' = e_cache e /\
    ((nlt A (clock 0) (e_due e) = true /\ e' = e /\ r = Ok tt) \/
     (nlt A (clock 0) (e_due e) = false /\
      match r with
      | Ok _ =>
          (forall j k, ks !! j = Some k -> alive em stamp clock e 2 j k) /\
          (forall k m t, k ∈ k_keyset (e_cache e) -> k_getitem em (e_cache e) k = Ok m -> m_stamp m = Some t ->
             le A (e_due e') (nadd A (stamp t) (e_before e))) /\
          le A (e_due e') (nadd A (clock 1) (e_before e))
      | Err x => exists j k m, ks !! j = Some k /\ (forall i k', i < j -> ks !! i = Some k' -> alive em stamp clock e 2 i k') /\
          k_getitem em (e_cache e) k = Ok m /\
          ((x = AttributeError /\ m_stamp m = None) \/
           (x = TypeError /\ exists t, m_stamp m = Some t /\
              nlt A (nadd A (stamp t) (e_before e)) (clock (2 + j)) = true))
      end)).
  Proof.
    intros HA Hks. pose proof (expire_keeps ks e) as Hkeep.
    destruct (remove_expired em stamp clock ks e) as [e' r] eqn:E. cbn [fst] in Hkeep. split; [done|].
    unfold remove_expired in E. destruct (nlt A (clock 0) (e_due e)) eqn:E0.
    { left. by injection E as <- <-. }
    right. split; [done|]. set (e1 := e_set_due (nadd A (clock 1) (e_before e)) e) in *.
    pose proof (loop_outcome ks 2 e1 (fun k Hk => keyset_getitem _ k (proj1 (Hks k) Hk))) as H. rewrite E in H.
    destruct r as [[]|x].
    - destruct (loop_due ks HA _ _ _ E) as (H1&H2&_). split_and!; [exact H| |exact H1].
      intros k m t Hk Hm Ht. apply (H2 k m t); [by apply Hks|done|done].
    - exact H.
  Qed.

  (** A directory that has just been opened. *)
  Lemma expire_reopened (matches : codes -> bool) max d before due ks :
    message_files matches d <> ∅ -> (forall k, k ∈ ks <-> exists f, k = Some f /\ f ∈ message_files matches d) ->
    nlt A (clock 0) due = false ->
    let e := Expiry (file_corpus_new matches max d) before due : expiry in
    let '(e', r) := remove_expired em stamp clock ks e in
    r = Err AttributeError /\ e_cache e' = e_cache e.
  Proof.
    intros Hne Hks H0. cbv zeta.
    assert (file_corpus_new matches max d = (file_new matches max d : cache msg)) as ->.
    { unfold file_corpus_new. apply nonempty_cache_used. unfold k_len, file_new. cbn [k_class].
      intros Hsz. apply Hne. by apply leibniz_equiv, size_empty_inv. }
    unfold remove_expired. cbn [e_due]. rewrite H0. destruct ks as [|k ks].
    { exfalso. apply Hne. apply set_eq. intros f. split; [|set_solver]. intros Hf.
      assert (Some f ∈ @nil key) as Hin by (apply Hks; eauto). by apply elem_of_nil in Hin. }
    cbn [expire_loop e_set_due e_cache].
    destruct (proj1 (Hks k)) as (f&->&Hf); [left|]. apply elem_message_files in Hf as [Hm [b Hb]].
    unfold k_getitem. cbn [k_data k_class k_dir file_new]. rewrite lookup_empty, Hb, Hm. done.
  Qed.
End expiry.
