(** * Lemmas about caches *)
From Coq Require Import Lia.
From Verif Require Import Py CacheModel CacheSpec.

Section proofs.
  Context {C T : Type} (em : emailpkg C).
  Notation msg := (msg C T).
  Notation cache := (cache msg).
  Notation kop := (@kop C T).
  Notation k_put := (k_put em).
  Notation k_getitem := (k_getitem em).
  Notation k_get := (k_get em).
  Notation run_kop := (run_kop em).
  Notation run_kops := (run_kops em).
  Implicit Types (c : cache) (k : key) (m : msg) (xs : list kop).

  (** ** Lists of keys *)
  Lemma remove_first_length k l : k ∈ l -> S (length (remove_first k l)) = length l.
  Proof.
    induction l as [|x l IH]; intros H; [by apply elem_of_nil in H|]. simpl. destruct (decide (x = k)); [done|].
    simpl. f_equal. apply IH. apply elem_of_cons in H as [->|H]; done.
  Qed.

  Lemma remove_first_length_le k l : length (remove_first k l) <= length l.
  Proof. induction l as [|x l IH]; simpl; [done|]. destruct (decide _); simpl; lia. Qed.

  Lemma remove_first_other k k' l : k' <> k -> k' ∈ l -> k' ∈ remove_first k l.
  Proof.
    intros Hne. induction l as [|x l IH]; intros H; simpl; [done|]. destruct (decide (x = k)) as [->|].
    - apply elem_of_cons in H as [|]; done.
    - apply elem_of_cons in H as [->|H]; [left|right; auto].
  Qed.

  Lemma remove_first_not k l : k ∉ l -> remove_first k l = l.
  Proof.
    induction l as [|x l IH]; intros H; simpl; [done|]. apply not_elem_of_cons in H as [Hx H].
    rewrite decide_False by done. by rewrite IH.
  Qed.

  Lemma remove_first_sub k k' l : k' ∈ remove_first k l -> k' ∈ l.
  Proof.
    induction l as [|x l IH]; simpl; [done|]. destruct (decide _); intros H; [by right|].
    apply elem_of_cons in H as [->|H]; [left|right; auto].
  Qed.

  (** ** What put and pop do *)
  Definition over (max : option Z) (n : nat) : bool :=
    match max with Some z => (z <? Z.of_nat n)%Z | None => false end.

  Definition no_none c : Prop := match k_class c with
    | Naive => True
    | File matches _ => forall k, k ∈ k_keys c -> exists f, k = Some f /\ matches f = true
    end.

  Lemma k_pop_state k c : (k_class c = Naive \/ k <> None) -> exists r,
    k_pop k c = (Cache (k_class c) (remove_first k (k_keys c)) (delete k (k_data c)) (k_max c)
      (match k_class c, k with File _ _, Some f => delete f (k_dir c) | _, _ => k_dir c end), Ok r).
  Proof.
    intros H. unfold k_pop, file_pop, mbind, naive_pop.
    destruct (k_class c) eqn:E; [eexists; done|]. destruct k as [f|]; [eexists; reflexivity|].
    by destruct H.
  Qed.

  Lemma k_pop_fst k c :
    k_class (fst (k_pop k c)) = k_class c /\ k_keys (fst (k_pop k c)) = remove_first k (k_keys c) /\
    k_data (fst (k_pop k c)) = delete k (k_data c) /\ k_max (fst (k_pop k c)) = k_max c /\
    k_dir (fst (k_pop k c)) =
      match k_class c, k with File _ _, Some f => delete f (k_dir c) | _, _ => k_dir c end.
  Proof.
    unfold k_pop, file_pop, mbind, naive_pop. destruct (k_class c) eqn:E; [done|].
    destruct k as [f|]; done.
  Qed.

  (** The state after NaiveCache.put. *)
  Definition evicted c k : option key :=
    if over (k_max c) (S (length (k_keys c))) then head (k_keys c ++ [k]) else None.

  Lemma naive_put_state k m c : (k_class c = Naive \/ k <> None) -> no_none c ->
    naive_put k m c = (
      match evicted c k with
      | None => Cache (k_class c) (k_keys c ++ [k]) (<[k := m]> (k_data c)) (k_max c) (k_dir c)
      | Some k0 => Cache (k_class c) (tail (k_keys c ++ [k])) (delete k0 (<[k := m]> (k_data c))) (k_max c)
          (match k_class c, k0 with File _ _, Some f => delete f (k_dir c) | _, _ => k_dir c end)
      end, Ok tt).
  Proof.
    intros Hk Hn. unfold naive_put, evicted. cbn [k_max k_keys k_class].
    destruct (k_max c) as [max|] eqn:Em; [|done]. cbn [over].
    rewrite app_length. cbn [length]. replace (length (k_keys c) + 1) with (S (length (k_keys c))) by lia.
    destruct (k_keys c ++ [k]) as [|k0 l] eqn:El; [by destruct (k_keys c)|].
    destruct (Z.ltb_spec max (Z.of_nat (S (length (k_keys c))))) as [Hlt|Hge]; [|done].
    cbn [head tail].
    set (c1 := Cache (k_class c) (k0 :: l) (<[k:=m]> (k_data c)) (Some max) (k_dir c)).
    assert (k_class c1 = Naive \/ k0 <> None) as H0.
    { destruct (k_class c) eqn:Ec; [by left|]. right. intros ->. unfold no_none in Hn. rewrite Ec in Hn.
      destruct Hk as [|Hk]; [congruence|]. assert (None ∈ k_keys c ++ [k]) as Hin by (rewrite El; left).
      apply elem_of_app in Hin as [Hin|Hin]; [by destruct (Hn _ Hin) as (?&?&?)|].
      apply elem_of_list_singleton in Hin. congruence. }
    destruct (k_pop_state k0 c1 H0) as [r Er]. unfold mbind. rewrite Er. unfold c1. cbn.
    by rewrite decide_True.
  Qed.

  Lemma k_put_state k m c : no_none c ->
    (k_put k m c = (c, Err TypeError) /\ (exists f n, k_class c = File f n) /\ k = None) \/
    (k_put k m c = (c, Err ValueError) /\ exists matches n f, k_class c = File matches n /\ k = Some f /\ matches f = false) \/
    (exists c', naive_put k m c = (c', Ok tt) /\ (k_class c = Naive \/ k <> None) /\
      k_put k m c = (Cache (k_class c) (k_keys c') (k_data c') (k_max c)
        (match k_class c, k with
         | File _ _, Some f => <[f := as_bytes em (m_content m)]> (k_dir c') | _, _ => k_dir c' end), Ok tt) /\
      forall matches n, k_class c = File matches n -> exists f, k = Some f /\ matches f = true).
  Proof.
    intros Hn. unfold k_put. destruct (k_class c) as [|matches n] eqn:Ec.
    - right. right. destruct (naive_put k m c) as [c' r] eqn:E.
      pose proof E as E'. rewrite naive_put_state in E' by (by left || done).
      assert (r = Ok tt /\ k_class c' = Naive /\ k_max c' = k_max c) as (->&Hc&Hm).
      { destruct (evicted c k); injection E' as <- <-; done. }
      exists c'. split_and!; [done|by left| |done]. destruct c'. cbn in *. by subst.
    - destruct k as [f|]; [|left; eauto 10]. unfold file_put. destruct (matches f) eqn:Ef; [|right; left; eauto 10].
      right. right. destruct (naive_put (Some f) m c) as [c' r] eqn:E.
      pose proof E as E'. rewrite naive_put_state in E' by (by right || done).
      assert (r = Ok tt /\ k_class c' = File matches n /\ k_max c' = k_max c) as (->&Hc&Hm).
      { destruct (evicted c (Some f)); injection E' as <- <-; done. }
      exists c'. split_and!; [done|by right| |].
      + unfold mbind. rewrite E. by rewrite Hc, Hm.
      + intros ?? [= <- <-]. eauto.
  Qed.

  (** ** Invariants of all histories *)
  Record kinv (c0 : cache) (xs : list kop) c : Prop := {
    i_class : k_class c = k_class c0;
    i_max : k_max c = k_max c0;
    i_none : no_none c;
    i_sub : forall k, k ∈ dom (k_data c) -> k ∈ k_keys c;
    i_len : match k_max c0 with Some z => (Z.of_nat (length (k_keys c)) <= Z.max 0 z)%Z | None => True end;
    i_val : forall k m, k_data c !! k = Some m -> last_put xs k = Some m
  }.

  Lemma last_put_app xs ys k : last_put (xs ++ ys) k =
    match last_put ys k with Some m => Some m | None => last_put xs k end.
  Proof.
    induction xs as [|x xs IH]; simpl; [by destruct (last_put ys k)|].
    rewrite IH. by destruct (last_put ys k).
  Qed.

  Lemma last_put_snoc_put xs k m k' : last_put (xs ++ [KPut k m]) k' =
    if decide (k = k') then Some m else last_put xs k'.
  Proof. rewrite last_put_app. simpl. by destruct (decide (k = k')). Qed.

  Lemma last_put_snoc_pop xs k k' : last_put (xs ++ [KPop k]) k' = last_put xs k'.
  Proof. by rewrite last_put_app. Qed.

  Lemma last_put_snoc_get xs k k' : last_put (xs ++ [KGet k]) k' = last_put xs k'.
  Proof. by rewrite last_put_app. Qed.

  Lemma head_tail_app (l : list key) k : exists k0, head (l ++ [k]) = Some k0 /\ k0 :: tail (l ++ [k]) = l ++ [k].
  Proof. destruct l as [|x l]; simpl; eauto. Qed.

  Lemma kinv_put c0 xs c k m : kinv c0 xs c -> kinv c0 (xs ++ [KPut k m]) (fst (k_put k m c)).
  Proof.
    intros [Hc Hm Hn Hs Hl Hv].
    destruct (k_put_state k m c Hn) as [(->&(f&n&Ec)&->)|[(->&matches&n&f&Ec&->&Ef)|(c'&E&Hk&->&Hmt)]].
    - constructor; try done. intros k' m' H'. rewrite last_put_snoc_put. destruct (decide (None = k')) as [<-|]; [|auto].
      exfalso. unfold no_none in Hn. rewrite Ec in Hn. apply elem_of_dom_2, Hs, Hn in H'. by destruct H' as (?&?&?).
    - constructor; try done. intros k' m' H'. rewrite last_put_snoc_put. destruct (decide (Some f = k')) as [<-|]; [|auto].
      exfalso. unfold no_none in Hn. rewrite Ec in Hn. apply elem_of_dom_2, Hs, Hn in H' as (f'&[= <-]&?). congruence.
    - cbn [fst]. rewrite naive_put_state in E by done.
      pose proof (head_tail_app (k_keys c) k) as (k0&Eh&Et).
      assert (forall k', k' ∈ dom (k_data c') -> k' ∈ k_keys c') as Hs'.
      { unfold evicted in E. rewrite Eh in E. destruct (over _ _); injection E as <-; cbn [k_data k_keys].
        - intros k' Hd. rewrite dom_delete_L, dom_insert_L in Hd.
          assert (k' ∈ k_keys c ++ [k]) as Hin.
          { apply elem_of_app. assert (k' = k \/ k' ∈ dom (k_data c)) as [->|] by set_solver.
            - right. left. - left. auto. }
          rewrite <- Et in Hin. apply elem_of_cons in Hin as [->|]; [set_solver|done].
        - intros k' Hd. rewrite dom_insert_L in Hd. apply elem_of_app.
          assert (k' = k \/ k' ∈ dom (k_data c)) as [->|] by set_solver; [right; left|left; auto]. }
      constructor; cbn [k_class k_max k_keys k_data]; try done.
      + unfold no_none in *. cbn [k_class k_keys]. destruct (k_class c) eqn:Ec; [done|].
        assert (forall k', k' ∈ k_keys c ++ [k] -> exists f, k' = Some f /\ matches f = true) as Hnn.
        { intros k' [Hin|Hin%elem_of_list_singleton]%elem_of_app; [auto|]. subst k'. by eapply Hmt. }
        unfold evicted in E. rewrite Eh in E. destruct (over _ _); injection E as <-; cbn [k_keys]; [|done].
        intros k' Hk'. apply Hnn. rewrite <- Et. by right.
      + rewrite <- Hm. unfold evicted, over in E. rewrite <- Hm in Hl.
        destruct (k_max c) as [z|] eqn:Em; [|done]. rewrite Eh in E.
        assert (length (k_keys c ++ [k]) = S (length (k_keys c))) as El by (rewrite app_length; simpl; lia).
        destruct (Z.ltb_spec z (Z.of_nat (S (length (k_keys c))))); injection E as <-; cbn [k_keys].
        * rewrite <- Et in El. simpl in El. lia.
        * lia.
      + intros k' m' H'. rewrite last_put_snoc_put.
        assert (<[k:=m]> (k_data c) !! k' = Some m') as H2.
        { destruct (evicted c k) as [k1|]; injection E as <-; cbn [k_data] in H'; [|done].
          by apply lookup_delete_Some in H' as [_ ?]. }
        destruct (decide (k = k')) as [<-|Hne].
        * rewrite lookup_insert in H2. done.
        * rewrite lookup_insert_ne in H2 by done. auto.
  Qed.

  Lemma kinv_pop c0 xs c k : kinv c0 xs c -> kinv c0 (xs ++ [KPop k]) (fst (k_pop k c)).
  Proof.
    intros [Hc Hm Hn Hs Hl Hv]. destruct (k_pop_fst k c) as (E1&E2&E3&E4&E5). constructor.
    - congruence.
    - congruence.
    - unfold no_none in *. rewrite E1, E2. destruct (k_class c); [done|]. intros k' Hk'. apply Hn.
      by eapply remove_first_sub.
    - intros k'. rewrite E2, E3, dom_delete_L. intros Hk'. apply remove_first_other; [set_solver|]. apply Hs. set_solver.
    - destruct (k_max c0); [|done]. rewrite E2. pose proof (remove_first_length_le k (k_keys c)). lia.
    - intros k' m'. rewrite E3, last_put_snoc_pop, lookup_delete_Some. intros [_ H]. auto.
  Qed.

  Lemma kinv_get c0 xs c k : kinv c0 xs c -> kinv c0 (xs ++ [KGet k]) c.
  Proof.
    intros [Hc Hm Hn Hs Hl Hv]. constructor; try done. intros k' m' H. rewrite last_put_snoc_get. auto.
  Qed.

  Lemma run_kops_snoc xs x c : run_kops (xs ++ [x]) c = run_kop x (run_kops xs c).
  Proof. unfold CacheModel.run_kops. by rewrite foldl_app. Qed.

  Lemma kinv_run c0 xs : kinv c0 [] c0 -> kinv c0 xs (run_kops xs c0).
  Proof.
    intros H0. induction xs as [|x xs IH] using rev_ind; [done|]. rewrite run_kops_snoc.
    destruct x as [k m|k|k]; cbn [CacheModel.run_kop].
    - by apply kinv_put.
    - by apply kinv_pop.
    - by apply kinv_get.
  Qed.

  (** A new object. *)
  Definition is_new c : Prop := k_keys c = [] /\ k_data c = ∅.

  Lemma kinv_new c : is_new c -> kinv c [] c.
  Proof.
    intros [Hk Hd]. constructor; try done.
    - unfold no_none. destruct (k_class c); [done|]. rewrite Hk. intros k H. by apply elem_of_nil in H.
    - rewrite Hd, dom_empty_L. set_solver.
    - rewrite Hk. destruct (k_max c); [simpl; lia|done].
    - rewrite Hd. intros k m H. by rewrite lookup_empty in H.
  Qed.

  Lemma size_dom_le `{Countable A} (s : gset A) (l : list A) : (forall a : A, a ∈ s -> a ∈ l) -> size s <= length l.
  Proof.
    intros Hsub. assert (s ⊆ list_to_set l) as Hs by (intros k Hk; apply elem_of_list_to_set; auto).
    apply subseteq_size in Hs. etrans; [done|].
    rewrite <- (list_to_set_elements_L (list_to_set l : gset A)).
    clear Hsub Hs s. rewrite list_to_set_elements_L. induction l as [|x l IH]; [done|]. simpl list_to_set. cbn [length].
    pose proof (size_union_alt {[x]} (list_to_set l : gset A)) as E.
    rewrite E, size_singleton.
    assert (size (list_to_set l ∖ {[x]} : gset A) <= size (list_to_set l : gset A)) by (apply subseteq_size; set_solver). lia.
  Qed.

  (** C37 *)
  Lemma cache_bounded xs c z : is_new c -> k_max c = Some z ->
    (Z.of_nat (size (k_data (run_kops xs c))) <= Z.max 0 z)%Z.
  Proof.
    intros Hnew Hz. destruct (kinv_run c xs (kinv_new c Hnew)) as [_ _ _ Hs Hl _]. rewrite Hz in Hl.
    rewrite <- size_dom. pose proof (size_dom_le (dom (k_data (run_kops xs c))) _ Hs). lia.
  Qed.

  Lemma naive_getitem c k m : k_class c = Naive -> k_getitem c k = Ok m <-> k_data c !! k = Some m.
  Proof.
    intros Hc. unfold CacheModel.k_getitem. rewrite Hc. destruct (k_data c !! k); [|by split].
    split; congruence.
  Qed.

  Lemma naive_bounded max d xs : let c := run_kops xs (naive_new max d) in
    match max with Some z => (Z.of_nat (k_len c) <= Z.max 0 z)%Z | None => True end /\
    forall k m, k_getitem c k = Ok m -> last_put xs k = Some m.
  Proof.
    cbv zeta. assert (is_new (naive_new max d : cache)) as Hnew by done.
    pose proof (kinv_run _ xs (kinv_new _ Hnew)) as Hi. destruct Hi as [Hc Hm Hn Hs Hl Hv]. split.
    - destruct max as [z|]; [|done]. unfold k_len. rewrite Hc. cbn [k_class naive_new]. by apply cache_bounded.
    - intros k m. rewrite naive_getitem by done. apply Hv.
  Qed.

  (** C38 *)
  Lemma queue_snoc max xs x : queue max (xs ++ [x]) = queue_step max (queue max xs) x.
  Proof. unfold queue. by rewrite foldl_app. Qed.

  Lemma fresh_snoc max xs x : forall q, fresh_puts max q (xs ++ [x]) <->
    fresh_puts max q xs /\ match x with KPut k _ => k ∉ (foldl (queue_step max) q xs).*1 | _ => True end.
  Proof.
    induction xs as [|y xs IH]; intros q; simpl; [tauto|]. rewrite IH. tauto.
  Qed.

  Definition qrep max (q : list (key * msg)) c : Prop :=
    k_class c = Naive /\ k_max c = max /\ k_keys c = q.*1 /\ NoDup q.*1 /\ k_data c = list_to_map q.

  Lemma remove_first_nodup k (q : list (key * msg)) : NoDup q.*1 -> remove_first k q.*1 = (dequeue q k).*1.
  Proof.
    induction q as [|[k' m] q IH]; intros Hnd; [done|]. rewrite fmap_cons in Hnd. apply NoDup_cons in Hnd as [Hk Hnd].
    rewrite fmap_cons. cbn [remove_first fst]. unfold dequeue. destruct (decide (k' = k)) as [->|Hne].
    - rewrite filter_cons_False by (cbn; tauto). fold (dequeue q k). rewrite <- IH by done. by rewrite remove_first_not.
    - rewrite filter_cons_True by done. rewrite fmap_cons. fold (dequeue q k). by rewrite <- IH.
  Qed.

  Lemma delete_list_to_map k (q : list (key * msg)) :
    delete k (list_to_map q : gmap key msg) = list_to_map (dequeue q k).
  Proof.
    induction q as [|[k' m] q IH]; [apply delete_empty|]. unfold dequeue. cbn [list_to_map foldr fst snd].
    change (foldr (fun p => <[p.1:=p.2]>) ∅ q) with (list_to_map q : gmap key msg).
    destruct (decide (k' = k)) as [->|Hne].
    - rewrite filter_cons_False by (cbn; tauto). by rewrite delete_insert_delete.
    - rewrite filter_cons_True by done. cbn [list_to_map foldr fst snd].
      rewrite delete_insert_ne by done. rewrite IH. done.
  Qed.

  Lemma dequeue_sub k (q : list (key * msg)) x : x ∈ (dequeue q k).*1 -> x ∈ q.*1.
  Proof.
    rewrite !elem_of_list_fmap. intros (e&->&He). unfold dequeue in He. apply elem_of_list_filter in He as [_ He]. eauto.
  Qed.

  Lemma dequeue_nodup k (q : list (key * msg)) : NoDup q.*1 -> NoDup (dequeue q k).*1.
  Proof.
    intros H. induction q as [|e q IH]; [constructor|].
    rewrite fmap_cons in H. apply NoDup_cons in H as [He H]. specialize (IH H). unfold dequeue.
    destruct (decide (e.1 <> k)); [rewrite filter_cons_True by done|rewrite filter_cons_False by done];
      fold (dequeue q k); [|done].
    rewrite fmap_cons. constructor; [|done]. intros Hin. by apply dequeue_sub in Hin.
  Qed.

  Lemma ltm_snoc (q : list (key * msg)) k m : k ∉ q.*1 ->
    (list_to_map (q ++ [(k, m)]) : gmap key msg) = <[k := m]> (list_to_map q).
  Proof. intros H. rewrite list_to_map_snoc by done. done. Qed.

  Lemma qrep_put max q c k m : qrep max q c -> k ∉ q.*1 -> qrep max (enqueue max q (k, m)) (fst (k_put k m c)).
  Proof.
    intros (Hc&Hm&Hk&Hnd&Hd) Hf. unfold CacheModel.k_put. rewrite Hc.
    rewrite naive_put_state by (try (by left); unfold no_none; by rewrite Hc). cbn [fst].
    assert (k_keys c ++ [k] = (q ++ [(k, m)]).*1) as Ek by (rewrite fmap_app, Hk; done).
    assert (NoDup (q ++ [(k, m)]).*1) as Hnd'.
    { rewrite fmap_app. apply NoDup_app. split_and!; [done| |apply NoDup_singleton].
      intros x Hx Hx'. apply elem_of_list_singleton in Hx' as ->. done. }
    assert (<[k:=m]> (k_data c) = list_to_map (q ++ [(k, m)])) as Ed by (rewrite Hd, ltm_snoc; done).
    assert (over (k_max c) (S (length (k_keys c))) = match max with
      | Some n => (n <? Z.of_nat (length (q ++ [(k, m)])))%Z | None => false end) as Eo.
    { rewrite Hm, Hk, fmap_length. unfold over. destruct max; [|done]. rewrite app_length. simpl.
      do 2 f_equal. lia. }
    unfold evicted. rewrite Eo, Ek. unfold enqueue. cbv zeta. set (q' := q ++ [(k, m)]) in *.
    assert (match max with Some n => if (n <? Z.of_nat (length q'))%Z then tail q' else q' | None => q' end =
      if match max with Some n => (n <? Z.of_nat (length q'))%Z | None => false end then tail q' else q') as ->
      by by destruct max.
    destruct (match max with Some n => _ | None => _ end).
    - destruct q' as [|[k0 m0] q2] eqn:Eq; [by destruct q|].
      rewrite fmap_cons in *. cbn [head tail fst]. apply NoDup_cons in Hnd' as [Hk0 Hnd'].
      unfold qrep. cbn [k_class k_max k_keys k_data]. split_and!; [done|done|done|done|].
      rewrite Ed. cbn [list_to_map foldr fst snd].
      change (foldr (fun p => <[p.1:=p.2]>) ∅ q2) with (list_to_map q2 : gmap key msg).
      rewrite delete_insert; [done|]. by apply not_elem_of_list_to_map_1.
    - unfold qrep. cbn. split_and!; try done.
  Qed.

  Lemma qrep_pop max q c k : qrep max q c -> qrep max (dequeue q k) (fst (k_pop k c)).
  Proof.
    intros (Hc&Hm&Hk&Hnd&Hd). destruct (k_pop_fst k c) as (E1&E2&E3&E4&_). unfold qrep.
    rewrite E1, E2, E3, E4, Hc, Hk, Hd. split_and!; [done|done| | |].
    - by apply remove_first_nodup.
    - by apply dequeue_nodup.
    - apply delete_list_to_map.
  Qed.

  Lemma qrep_run max d xs : fresh_puts max [] xs -> qrep max (queue max xs) (run_kops xs (naive_new max d)).
  Proof.
    induction xs as [|x xs IH] using rev_ind; intros H.
    - split_and!; try done. constructor.
    - apply fresh_snoc in H as [H Hx]. rewrite run_kops_snoc, queue_snoc. specialize (IH H).
      destruct x as [k m|k|k]; cbn [CacheModel.run_kop queue_step].
      + by apply qrep_put.
      + by apply qrep_pop.
      + done.
  Qed.

  Lemma naive_fifo max d xs : fresh_puts max [] xs -> let c := run_kops xs (naive_new max d) in
    k_len c = length (queue max xs) /\
    (forall k, k ∈ k_keyset c <-> k ∈ (queue max xs).*1) /\
    forall k m, k_getitem c k = Ok m <-> (k, m) ∈ queue max xs.
  Proof.
    intros H. cbv zeta. destruct (qrep_run max d xs H) as (Hc&Hm&Hk&Hnd&Hd).
    assert (forall k m, k_getitem (run_kops xs (naive_new max d)) k = Ok m <-> (k, m) ∈ queue max xs) as Hg.
    { intros k m. rewrite naive_getitem by done. rewrite Hd. by rewrite elem_of_list_to_map. }
    split_and!; [| |done].
    - unfold k_len. rewrite Hc, Hd. rewrite <- size_dom, dom_list_to_map_L, size_list_to_set by done.
      by rewrite fmap_length.
    - intros k. unfold k_keyset. rewrite Hc, Hd, dom_list_to_map_L. apply elem_of_list_to_set.
  Qed.

  (** Histories of puts only. *)

  Lemma queue_puts n (es : list (key * msg)) : queue (Some (Z.of_nat n)) (puts_of es) = last_n n es.
  Proof.
    induction es as [|[k m] es IH] using rev_ind; [done|]. unfold puts_of. rewrite fmap_app.
    change ((fun e => KPut e.1 e.2) <$> [(k, m)]) with [@KPut C T k m]. fold (puts_of es).
    rewrite queue_snoc, IH. cbn [queue_step]. unfold enqueue. cbv zeta.
    unfold last_n. rewrite !app_length, drop_length. cbn [length].
    destruct (Z.ltb_spec (Z.of_nat n) (Z.of_nat (length es - (length es - n) + 1))) as [Hlt|Hge].
    - destruct (decide (n = 0)) as [->|Hn0].
      + rewrite Nat.sub_0_r, drop_ge by lia. rewrite drop_ge by (rewrite app_length; simpl; lia). done.
      + replace (length es + 1 - n) with (S (length es - n)) by lia.
        rewrite drop_app_le by lia.
        destruct (drop (length es - n) es) as [|e l] eqn:Ed.
        { assert (length (drop (length es - n) es) = 0) as E0 by by rewrite Ed. rewrite drop_length in E0. lia. }
        simpl. f_equal. assert (drop 1 (drop (length es - n) es) = l) as El by by rewrite Ed.
        rewrite drop_drop in El. rewrite <- El. f_equal. lia.
    - replace (length es + 1 - n) with 0 by lia. replace (length es - n) with 0 by lia. done.
  Qed.

  Lemma fresh_puts_of max (es : list (key * msg)) : NoDup es.*1 -> fresh_puts max [] (puts_of es).
  Proof.
    induction es as [|[k m] es IH] using rev_ind; intros Hnd; [done|]. unfold puts_of. rewrite fmap_app.
    change ((fun e => KPut e.1 e.2) <$> [(k, m)]) with [@KPut C T k m]. fold (puts_of es).
    rewrite fmap_app in Hnd. apply NoDup_app in Hnd as (Hnd&Hd&_). apply fresh_snoc. split; [auto|].
    fold (queue max (puts_of es)). intros Hin. apply (Hd k); [|left].
    assert (forall e, e ∈ queue max (puts_of es) -> e ∈ es) as Hsub.
    { clear. induction es as [|[k' m'] es IH] using rev_ind; intros e He; [done|]. unfold puts_of in He.
      rewrite fmap_app in He. change ((fun e => KPut e.1 e.2) <$> [(k', m')]) with [@KPut C T k' m'] in He.
      fold (puts_of es) in He. rewrite queue_snoc in He. cbn [queue_step] in He. unfold enqueue in He.
      apply elem_of_app. assert (e ∈ queue max (puts_of es) ++ [(k', m')]) as He'.
      { destruct max as [z|]; [|done]. cbv zeta in He. destruct (_ <? _)%Z; [|done].
        destruct (queue _ _ ++ _); [done|]. by right. }
      apply elem_of_app in He' as [He'|He']; [left; auto|by right]. }
    apply elem_of_list_fmap in Hin as (e&->&He). apply elem_of_list_fmap. eauto.
  Qed.

  Lemma naive_last_n n d (es : list (key * msg)) : NoDup es.*1 ->
    let c := run_kops (puts_of es) (naive_new (Some (Z.of_nat n)) d) in
    forall k m, k_getitem c k = Ok m <-> (k, m) ∈ last_n n es.
  Proof.
    intros Hnd. cbv zeta. intros k m. rewrite <- queue_puts.
    exact (proj2 (proj2 (naive_fifo _ d _ (fresh_puts_of _ _ Hnd))) k m).
  Qed.

  Lemma reput_disappears n d es k m m' : length es = n -> NoDup ((k, m) :: es).*1 ->
    let c := run_kops (puts_of ((k, m) :: es) ++ [KPut k m']) (naive_new (Some (Z.of_nat (S n))) d) in
    k_getitem c k = Err KeyError /\ k_len c = n /\
    k_len (run_kops (puts_of ((k, m) :: es)) (naive_new (Some (Z.of_nat (S n))) d)) = S n.
  Proof.
    intros Hn Hnd. cbv zeta. set (c1 := run_kops (puts_of ((k, m) :: es)) (naive_new (Some (Z.of_nat (S n))) d)).
    assert (queue (Some (Z.of_nat (S n))) (puts_of ((k, m) :: es)) = (k, m) :: es) as Eq.
    { rewrite queue_puts. unfold last_n. cbn [length]. by rewrite Hn, Nat.sub_diag. }
    pose proof (qrep_run (Some (Z.of_nat (S n))) d _ (fresh_puts_of _ _ Hnd)) as (Hc&Hm&Hk&_&Hd). fold c1 in Hc, Hm, Hk, Hd.
    rewrite Eq in Hk, Hd. rewrite fmap_cons in Hk. cbn [fst] in Hk.
    rewrite run_kops_snoc. fold c1. cbn [CacheModel.run_kop]. unfold CacheModel.k_put. rewrite Hc.
    rewrite naive_put_state by (try (by left); unfold no_none; by rewrite Hc). cbn [fst].
    unfold evicted. rewrite Hm, Hk. cbn [length over head app].
    assert (length es.*1 = n) as Hl by by rewrite fmap_length.
    rewrite Hl, (proj2 (Z.ltb_lt _ _)) by lia. cbn [head].
    rewrite fmap_cons in Hnd. apply NoDup_cons in Hnd as [Hk1 Hnd]. cbn [fst] in *.
    assert (delete k (<[k:=m']> (k_data c1)) = list_to_map es) as Ed.
    { rewrite delete_insert_delete, Hd. cbn [list_to_map foldr fst snd].
      change (foldr (fun p => <[p.1:=p.2]>) ∅ es) with (list_to_map es : gmap key msg).
      rewrite delete_insert; [done|]. by apply not_elem_of_list_to_map_1. }
    split_and!.
    - unfold CacheModel.k_getitem. cbn [k_data k_class]. rewrite lookup_delete, Hc. done.
    - unfold k_len. cbn [k_data k_class]. rewrite Hc, Ed.
      rewrite <- size_dom, dom_list_to_map_L, size_list_to_set by done. done.
    - unfold k_len. rewrite Hc, Hd, <- size_dom, dom_list_to_map_L, size_list_to_set.
      + rewrite fmap_length. cbn [length]. by rewrite Hn.
      + rewrite fmap_cons. by constructor.
  Qed.

  (** ** Caches on a directory *)
  Lemma put_names_app xs ys : put_names (xs ++ ys) = put_names xs ∪ put_names ys.
  Proof. unfold put_names. by rewrite omap_app, list_to_set_app_L. Qed.

  Lemma put_names_put f m : put_names [@KPut C T (Some f) m] = {[f]}.
  Proof. unfold put_names. cbn. set_solver. Qed.

  Lemma pop_names_app xs ys : pop_names (xs ++ ys) = pop_names xs ∪ pop_names ys.
  Proof. unfold pop_names. by rewrite omap_app, list_to_set_app_L. Qed.

  Lemma pop_names_pop f : pop_names [@KPop C T (Some f)] = {[f]}.
  Proof. unfold pop_names. cbn. set_solver. Qed.

  Lemma elem_message_files (matches : codes -> bool) (d : gmap codes codes) f :
    f ∈ message_files matches d <-> matches f = true /\ is_Some (d !! f).
  Proof. unfold message_files. by rewrite elem_of_filter, elem_of_dom. Qed.

  Record finv (matches : codes -> bool) (d : gmap codes codes) (max : option Z) xs c : Prop := {
    f_class : exists n, k_class c = File matches n;
    f_max : k_max c = max;
    f_names : forall k, k ∈ k_keys c -> exists f, k = Some f /\ matches f = true /\ f ∈ put_names xs;
    f_data : forall f m, k_data c !! Some f = Some m -> k_dir c !! f = Some (as_bytes em (m_content m));
    f_keys : match max with Some z => (1 <= z)%Z | None => True end ->
      forall f, f ∈ put_names xs -> f ∈ message_files matches (k_dir c) -> Some f ∈ k_keys c;
    f_put : forall f b, f ∈ put_names xs -> matches f = true -> k_dir c !! f = Some b ->
      exists m, last_put xs (Some f) = Some m /\ b = as_bytes em (m_content m);
    f_old : forall f, f ∉ put_names xs \/ matches f = false ->
      k_dir c !! f = if decide (f ∈ pop_names xs) then None else d !! f
  }.

  Lemma finv_new (matches : codes -> bool) max d : finv matches d max [] (file_new matches max d : cache).
  Proof.
    constructor; cbn; try done; eauto.
    intros k H. by apply elem_of_nil in H.
  Qed.

  Lemma finv_put matches d max xs c k m : finv matches d max xs c ->
    finv matches d max (xs ++ [KPut k m]) (fst (k_put k m c)).
  Proof.
    intros [[n Hc] Hm Hn Hd Hk Hp Ho].
    assert (no_none c) as Hnn.
    { unfold no_none. rewrite Hc. intros k' Hk'. destruct (Hn _ Hk') as (f&?&?&?). eauto. }
    assert (pop_names (xs ++ [KPut k m]) = pop_names xs) as Epop.
    { rewrite pop_names_app. unfold pop_names at 2. cbn. set_solver. }
    destruct (k_put_state k m c Hnn) as [(->&_&->)|[(->&matches'&n'&f&Ec&->&Ef)|(c'&E&_&->&Hmt)]].
    - assert (put_names (xs ++ [KPut None m]) = put_names xs) as Eput.
      { rewrite put_names_app. unfold put_names at 2. cbn. set_solver. }
      constructor; rewrite ?Epop, ?Eput; cbn [fst]; eauto.
      intros f b. rewrite last_put_snoc_put, decide_False by done. eauto.
    - assert (matches' = matches) as -> by congruence.
      constructor; rewrite ?Epop, ?put_names_app, ?put_names_put; cbn [fst]; eauto.
      + intros k' Hk'. destruct (Hn _ Hk') as (g&?&?&?). exists g. set_solver.
      + intros Hz g Hg Hin. apply Hk; [done| |done]. apply elem_message_files in Hin as [Hg' _].
        assert (g <> f) by congruence. set_solver.
      + intros g b Hg Hmg. rewrite last_put_snoc_put. assert (g <> f) by congruence.
        rewrite decide_False by congruence. apply Hp; [set_solver|done].
      + intros g Hg. apply Ho. destruct Hg as [Hg|Hg]; [left; set_solver|by right].
    - destruct (Hmt matches n Hc) as (f&->&Ef). rewrite Hc. cbn [fst].
      rewrite naive_put_state in E by (by right || done). rewrite Hc in E.
      pose proof (head_tail_app (k_keys c) (Some f)) as (k0&Eh&Et).
      assert (exists f0, k0 = Some f0 /\ matches f0 = true /\ f0 ∈ put_names (xs ++ [KPut (Some f) m])) as (f0&->&Ef0&Hf0).
      { assert (k0 ∈ k_keys c ++ [Some f]) as Hin by (rewrite <- Et; left).
        apply elem_of_app in Hin as [Hin|Hin%elem_of_list_singleton].
        - destruct (Hn _ Hin) as (g&?&?&?). exists g. rewrite put_names_app. set_solver.
        - exists f. rewrite put_names_app, put_names_put. split_and!; [done|done|set_solver]. }
      unfold evicted in E. rewrite Eh in E. rewrite put_names_app, put_names_put in Hf0.
      assert (forall k', k' ∈ k_keys c ++ [Some f] -> exists g, k' = Some g /\ matches g = true /\ g ∈ put_names xs ∪ {[f]}) as Hnames.
      { intros k' [Hin|Hin%elem_of_list_singleton]%elem_of_app; [|subst k'].
        - destruct (Hn _ Hin) as (g&?&?&?). exists g. set_solver.
        - exists f. set_solver. }
      assert (forall g, g ≠ f -> last_put (xs ++ [KPut (Some f) m]) (Some g) = last_put xs (Some g)) as Hlne.
      { intros g Hg. rewrite last_put_snoc_put, decide_False by congruence. done. }
      assert (last_put (xs ++ [KPut (Some f) m]) (Some f) = Some m) as Hle.
      { rewrite last_put_snoc_put, decide_True by done. done. }
      destruct (over _ _) eqn:Eover; injection E as <-;
        (constructor; rewrite ?Epop, ?put_names_app, ?put_names_put; cbn [k_class k_max k_keys k_data k_dir]; eauto).
      + intros k' Hk'. apply Hnames. rewrite <- Et. by right.
      + intros g m' Hg. apply lookup_delete_Some in Hg as [Hne Hg].
        destruct (decide (g = f)) as [->|Hgf].
        * rewrite lookup_insert in Hg. injection Hg as <-. by rewrite lookup_insert.
        * rewrite lookup_insert_ne in Hg by congruence. rewrite lookup_insert_ne by done.
          rewrite lookup_delete_ne by congruence. auto.
      + intros Hz g Hg Hin. apply elem_message_files in Hin as [Hmg Hin].
        assert (1 <= length (k_keys c)) as Hlen.
        { unfold over in Eover. rewrite Hm in Eover. destruct max as [z|]; [|done]. apply Z.ltb_lt in Eover. lia. }
        destruct (decide (g = f)) as [->|Hgf].
        * destruct (k_keys c) as [|k1 ks]; [simpl in Hlen; lia|]. simpl. apply elem_of_app. right. left.
        * rewrite lookup_insert_ne in Hin by done. rewrite lookup_delete_is_Some in Hin. destruct Hin as [Hne Hin].
          assert (Some g ∈ k_keys c ++ [Some f]) as Hgin.
          { apply elem_of_app. left. apply Hk; [done|set_solver|]. apply elem_message_files. done. }
          rewrite <- Et in Hgin. apply elem_of_cons in Hgin as [|]; [congruence|done].
      + intros g b Hg Hmg Hb. destruct (decide (g = f)) as [->|Hgf].
        * rewrite lookup_insert in Hb. injection Hb as <-. eauto.
        * rewrite lookup_insert_ne in Hb by done. apply lookup_delete_Some in Hb as [_ Hb].
          rewrite Hlne by done. apply Hp; [set_solver|done|done].
      + intros g Hg. assert (g <> f) as Hgf by (destruct Hg; [set_solver|congruence]).
        rewrite lookup_insert_ne by done.
        assert (g <> f0) as Hgf0 by (destruct Hg; [set_solver|congruence]).
        rewrite lookup_delete_ne by done. apply Ho. destruct Hg; [left; set_solver|by right].
      + intros g m' Hg. destruct (decide (g = f)) as [->|Hgf].
        * rewrite lookup_insert in Hg. injection Hg as <-. by rewrite lookup_insert.
        * rewrite lookup_insert_ne in Hg by congruence. rewrite lookup_insert_ne by done. auto.
      + intros Hz g Hg Hin. apply elem_message_files in Hin as [Hmg Hin]. apply elem_of_app.
        destruct (decide (g = f)) as [->|Hgf]; [right; left|left].
        rewrite lookup_insert_ne in Hin by done. apply Hk; [done|set_solver|]. by apply elem_message_files.
      + intros g b Hg Hmg Hb. destruct (decide (g = f)) as [->|Hgf].
        * rewrite lookup_insert in Hb. injection Hb as <-. eauto.
        * rewrite lookup_insert_ne in Hb by done. rewrite Hlne by done. apply Hp; [set_solver|done|done].
      + intros g Hg. assert (g <> f) as Hgf by (destruct Hg; [set_solver|congruence]).
        rewrite lookup_insert_ne by done. apply Ho. destruct Hg; [left; set_solver|by right].
  Qed.

  Lemma finv_pop matches d max xs c k : finv matches d max xs c ->
    finv matches d max (xs ++ [KPop k]) (fst (k_pop k c)).
  Proof.
    intros [[n Hc] Hm Hn Hd Hk Hp Ho]. destruct (k_pop_fst k c) as (E1&E2&E3&E4&E5). rewrite Hc in E5.
    assert (put_names (xs ++ [KPop k]) = put_names xs) as Eput.
    { rewrite put_names_app. unfold put_names at 2. cbn. set_solver. }
    constructor; rewrite ?E1, ?E2, ?E3, ?E4, ?Eput; eauto.
    - intros k' Hk'. apply remove_first_sub in Hk'. eauto.
    - intros f m Hf. apply lookup_delete_Some in Hf as [Hne Hf]. rewrite E5. destruct k as [g|]; [|auto].
      rewrite lookup_delete_ne by congruence. auto.
    - intros Hz f Hf Hin. rewrite E5 in Hin. apply elem_message_files in Hin as [Hmf Hin].
      apply remove_first_other; [destruct k as [g|]; [|done]|].
      + apply lookup_delete_is_Some in Hin as [? _]. congruence.
      + apply Hk; [done|done|]. apply elem_message_files. split; [done|]. destruct k as [g|]; [|done].
        by apply lookup_delete_is_Some in Hin as [_ ?].
    - intros f b Hf Hmf Hb. rewrite last_put_snoc_pop. apply Hp; [done|done|]. rewrite E5 in Hb.
      destruct k as [g|]; [|done]. by apply lookup_delete_Some in Hb as [_ ?].
    - intros f Hf. rewrite E5, pop_names_app. destruct k as [g|].
      + rewrite pop_names_pop. destruct (decide (f = g)) as [->|Hne].
        * rewrite lookup_delete. rewrite decide_True by set_solver. done.
        * rewrite lookup_delete_ne by done. rewrite (Ho f Hf).
          destruct (decide (f ∈ pop_names xs)); [rewrite decide_True by set_solver|rewrite decide_False by set_solver]; done.
      + rewrite (Ho f Hf). unfold pop_names at 3. cbn. by rewrite union_empty_r_L.
  Qed.

  Lemma finv_get matches d max xs c k : finv matches d max xs c -> finv matches d max (xs ++ [KGet k]) c.
  Proof.
    intros [[n Hc] Hm Hn Hd Hk Hp Ho].
    assert (put_names (xs ++ [KGet k]) = put_names xs) as Eput.
    { rewrite put_names_app. unfold put_names at 2. cbn. set_solver. }
    assert (pop_names (xs ++ [KGet k]) = pop_names xs) as Epop.
    { rewrite pop_names_app. unfold pop_names at 2. cbn. set_solver. }
    constructor; rewrite ?Eput, ?Epop; eauto. intros f b. rewrite last_put_snoc_get. eauto.
  Qed.

  Lemma finv_run matches d max xs : finv matches d max xs (run_kops xs (file_new matches max d)).
  Proof.
    induction xs as [|x xs IH] using rev_ind; [apply finv_new|]. rewrite run_kops_snoc.
    destruct x as [k m|k|k]; cbn [CacheModel.run_kop].
    - by apply finv_put.
    - by apply finv_pop.
    - by apply finv_get.
  Qed.

  Lemma file_kinv matches d max xs : kinv (file_new matches max d) xs (run_kops xs (file_new matches max d)).
  Proof. apply kinv_run, kinv_new. done. Qed.

  (** C40 *)
  Lemma file_bounded matches d z xs : (1 <= z)%Z ->
    (Z.of_nat (size (message_files matches (k_dir (run_kops xs (file_new matches (Some z) d))) ∩ put_names xs)) <= z)%Z.
  Proof.
    intros Hz. set (c := run_kops xs (file_new matches (Some z) d)).
    pose proof (finv_run matches d (Some z) xs) as [_ _ _ _ Hk _ _]. fold c in Hk.
    pose proof (file_kinv matches d (Some z) xs) as [_ _ _ _ Hl _]. fold c in Hl. cbn [k_max file_new] in Hl.
    assert (size (message_files matches (k_dir c) ∩ put_names xs) <= length (omap id (k_keys c))) as H.
    { apply size_dom_le. intros f Hin. apply elem_of_list_omap. exists (Some f). split; [|done]. apply Hk; set_solver. }
    assert (forall l : list key, length (omap id l) <= length l) as Ho.
    { clear. intros l. induction l as [|[x|] l IH]; cbn in *; lia. }
    specialize (Ho (k_keys c)). lia.
  Qed.

  (** Puts of distinct matching names: the oldest files disappear. *)
  Lemma last_n_snoc {X} n (l : list X) x : 1 <= n ->
    last_n n (l ++ [x]) = (if (n <=? length l) then tail (last_n n l) else last_n n l) ++ [x].
  Proof.
    intros Hn. unfold last_n. rewrite app_length. cbn [length].
    destruct (Nat.leb_spec n (length l)).
    - rewrite drop_app_le by lia. f_equal. replace (length l + 1 - n) with (S (length l - n)) by lia.
      rewrite <- (Nat.add_1_r (length l - n)), <- drop_drop. by destruct (drop (length l - n) l).
    - replace (length l + 1 - n) with 0 by lia. replace (length l - n) with 0 by lia. done.
  Qed.

  Lemma last_n_length {X} n (l : list X) : length (last_n n l) = n `min` length l.
  Proof. unfold last_n. rewrite drop_length. lia. Qed.

  Lemma last_n_sub {X} n (l : list X) x : x ∈ last_n n l -> x ∈ l.
  Proof. unfold last_n. intros H. rewrite <- (take_drop (length l - n) l). apply elem_of_app. by right. Qed.

  Lemma last_n_nodup {X} n (l : list (codes * X)) : NoDup l.*1 -> NoDup (last_n n l).*1.
  Proof.
    unfold last_n. intros H. rewrite <- (take_drop (length l - n) l), fmap_app in H. by apply NoDup_app in H as (_&_&?).
  Qed.

  Lemma file_evicts (matches : codes -> bool) d n (es : list (codes * msg)) : 1 <= n -> NoDup es.*1 ->
    (forall e, e ∈ es -> matches e.1 = true) ->
    let c := run_kops (puts_of (prod_map Some id <$> es)) (file_new matches (Some (Z.of_nat n)) d) in
    k_keys c = Some <$> (last_n n es).*1 /\
    forall f, k_dir c !! f =
      match (list_to_map (last_n n es) : gmap codes msg) !! f with
      | Some m => Some (as_bytes em (m_content m))
      | None => if decide (f ∈ es.*1) then None else d !! f
      end.
  Proof.
    intros Hn. cbv zeta. induction es as [|[f m] es IH] using rev_ind; intros Hnd Hmt; [done|].
    assert (NoDup es.*1 /\ f ∉ es.*1) as [Hnd' Hf].
    { rewrite fmap_app in Hnd. apply NoDup_app in Hnd as (?&H2&_). split; [done|]. intros Hin. by apply (H2 f Hin); left. }
    destruct IH as [Hk Hdir]; [done|intros e He; apply Hmt; set_solver|].
    unfold puts_of in *. rewrite !fmap_app.
    change ((fun e => KPut e.1 e.2) <$> (prod_map Some id <$> [(f, m)])) with [@KPut C T (Some f) m].
    rewrite run_kops_snoc. cbn [CacheModel.run_kop].
    set (xs := (fun e => @KPut C T e.1 e.2) <$> (prod_map Some id <$> es)) in *.
    set (c := run_kops xs (file_new matches (Some (Z.of_nat n)) d)) in *.
    pose proof (file_kinv matches d (Some (Z.of_nat n)) xs) as [Hc Hm Hnn _ _ _]. fold c in Hc, Hm, Hnn.
    cbn [k_class k_max file_new] in Hc, Hm.
    assert (matches f = true) as Hmf by (apply (Hmt (f, m)); set_solver).
    unfold CacheModel.k_put. rewrite Hc. cbn [file_put]. rewrite Hmf. unfold mbind.
    rewrite naive_put_state by (by right || done). rewrite Hc. unfold evicted. rewrite Hm. unfold over.
    assert (length (k_keys c) = n `min` length es) as Hlk by (by rewrite Hk, !fmap_length, last_n_length).
    rewrite last_n_snoc by done. rewrite Hlk.
    assert (forall g, g ≠ f -> (g ∈ es.*1 ++ [(f, m)].*1 <-> g ∈ es.*1)) as Hin.
    { intros g Hg. rewrite elem_of_app. cbn. rewrite elem_of_list_singleton. naive_solver. }
    pose proof (last_n_nodup n es Hnd') as Hndl.
    destruct (Nat.leb_spec n (length es)) as [Hle|Hgt].
    - rewrite (proj2 (Z.ltb_lt _ _)) by lia.
      destruct (last_n n es) as [|[f0 m0] q] eqn:Eq.
      { pose proof (last_n_length n es) as Hl0. rewrite Eq in Hl0. simpl in Hl0. lia. }
      rewrite Hk. rewrite fmap_cons in Hndl. apply NoDup_cons in Hndl as [Hf0 Hndl]. cbn [fst] in Hf0.
      assert (f0 ∈ es.*1) as Hf0es.
      { apply elem_of_list_fmap. exists (f0, m0). split; [done|]. apply (last_n_sub n). rewrite Eq. left. }
      assert (f ∉ q.*1) as Hfq.
      { intros H. apply Hf. apply elem_of_list_fmap in H as (e&->&He). apply elem_of_list_fmap. exists e. split; [done|].
        apply (last_n_sub n). rewrite Eq. by right. }
      rewrite !fmap_cons. cbn [fst tail head app k_keys k_dir fst]. split; [by rewrite !fmap_app|].
      intros g. destruct (decide (g = f)) as [->|Hgf].
      + rewrite lookup_insert. rewrite list_to_map_snoc by done. by rewrite lookup_insert.
      + rewrite lookup_insert_ne by done. rewrite list_to_map_snoc by done. rewrite lookup_insert_ne by done.
        rewrite (decide_ext _ _ _ _ (Hin g Hgf)).
        destruct (decide (g = f0)) as [->|Hg0].
        * rewrite lookup_delete. rewrite not_elem_of_list_to_map_1 by done. by rewrite decide_True.
        * rewrite lookup_delete_ne by done. rewrite Hdir. cbn [list_to_map foldr fst snd].
          by rewrite lookup_insert_ne by done.
    - rewrite (proj2 (Z.ltb_ge _ _)) by lia. cbn [k_keys k_dir fst]. rewrite Hk. split; [by rewrite !fmap_app|].
      assert (f ∉ (last_n n es).*1) as Hfq.
      { intros H. apply Hf. apply elem_of_list_fmap in H as (e&->&He). apply elem_of_list_fmap. exists e. split; [done|].
        by apply (last_n_sub n). }
      intros g. rewrite list_to_map_snoc by done. destruct (decide (g = f)) as [->|Hgf].
      + by rewrite !lookup_insert.
      + rewrite !lookup_insert_ne by done. rewrite Hdir. by rewrite (decide_ext _ _ _ _ (Hin g Hgf)).
  Qed.

  (** C41 *)
  Lemma file_getitem matches d max xs f : let c := run_kops xs (file_new matches max d) in
    (exists m, k_getitem c (Some f) = Ok m) <-> f ∈ message_files matches (k_dir c).
  Proof.
    cbv zeta. set (c := run_kops xs (file_new matches max d)).
    destruct (finv_run matches d max xs) as [[n Hc] Hm Hn Hd Hk Hp Ho]. fold c in Hc, Hm, Hn, Hd, Hk, Hp, Ho.
    pose proof (file_kinv matches d max xs) as [_ _ _ Hs _ _]. fold c in Hs.
    rewrite elem_message_files. unfold CacheModel.k_getitem. rewrite Hc. split.
    - intros [m E]. destruct (k_data c !! Some f) as [m'|] eqn:Ed.
      + assert (Some f ∈ k_keys c) as Hin by (apply Hs; apply elem_of_dom; eauto).
        destruct (Hn _ Hin) as (g&[= <-]&Hg&_). split; [done|]. rewrite (Hd _ _ Ed). eauto.
      + destruct (k_dir c !! f) as [b|]; [|done]. destruct (matches f); [eauto|done].
    - intros [Hf [b Hb]]. destruct (k_data c !! Some f) as [m'|]; [eauto|]. rewrite Hb, Hf. eauto.
  Qed.

  Lemma file_lookup matches d max xs f m : email_ok em -> let c := run_kops xs (file_new matches max d) in
    k_getitem c (Some f) = Ok m ->
    (f ∈ put_names xs -> exists m0, last_put xs (Some f) = Some m0 /\
       as_bytes em (m_content m) = as_bytes em (m_content m0) /\
       k_dir c !! f = Some (as_bytes em (m_content m0))) /\
    (f ∉ put_names xs -> exists b, d !! f = Some b /\ k_dir c !! f = Some b /\ m_content m = parse em b).
  Proof.
    intros Hem. cbv zeta. set (c := run_kops xs (file_new matches max d)). intros E.
    assert (f ∈ message_files matches (k_dir c)) as Hf by (apply file_getitem; eauto).
    apply elem_message_files in Hf as [Hf [b Hb]].
    destruct (finv_run matches d max xs) as [[n Hc] Hm Hn Hd Hk Hp Ho]. fold c in Hc, Hm, Hn, Hd, Hk, Hp, Ho.
    pose proof (file_kinv matches d max xs) as [_ _ _ Hs _ _]. fold c in Hs.
    unfold CacheModel.k_getitem in E. rewrite Hc, Hb, Hf in E. split.
    - intros Hin. destruct (Hp f b Hin Hf Hb) as (m0&Hl&->). exists m0. split_and!; [done| |done].
      destruct (k_data c !! Some f) as [m'|] eqn:Ed.
      + injection E as ->. pose proof (Hd _ _ Ed). congruence.
      + injection E as <-. unfold from_path. cbn [m_content]. apply Hem.
    - intros Hin. exists b. split_and!; [|done|].
      + rewrite (Ho f) in Hb by (by left). by destruct (decide _).
      + destruct (k_data c !! Some f) as [m'|] eqn:Ed.
        * exfalso. assert (Some f ∈ k_keys c) as Hk' by (apply Hs; apply elem_of_dom; eauto).
          destruct (Hn _ Hk') as (g&[= <-]&_&?). done.
        * by injection E as <-.
  Qed.

  Lemma file_put_stores (matches : codes -> bool) d max xs f m : matches f = true ->
    let c := run_kops xs (file_new matches max d) in
    exists c', k_put (Some f) m c = (c', Ok tt) /\ k_dir c' !! f = Some (as_bytes em (m_content m)).
  Proof.
    intros Hf. cbv zeta. set (c := run_kops xs (file_new matches max d)).
    pose proof (file_kinv matches d max xs) as [Hc _ Hn _ _ _]. fold c in Hc, Hn. cbn [k_class file_new] in Hc.
    destruct (k_put_state (Some f) m c Hn) as [(_&_&?)|[(_&matches'&n&g&Ec&[= <-]&Hg)|(c'&_&_&E&_)]]; [done| |].
    - rewrite Ec in Hc. injection Hc as -> _. congruence.
    - rewrite E, Hc. eexists. split; [done|]. cbn [k_dir]. by rewrite lookup_insert.
  Qed.

  Lemma file_put_rejected matches d max xs f m : matches f = false ->
    let c := run_kops xs (file_new matches max d) in k_put (Some f) m c = (c, Err ValueError).
  Proof.
    intros Hf. cbv zeta. pose proof (file_kinv matches d max xs) as [Hc _ _ _ _ _]. cbn [k_class file_new] in Hc.
    unfold CacheModel.k_put. rewrite Hc. cbn [file_put]. by rewrite Hf.
  Qed.

  Lemma file_pop_removes matches d max xs f : let c := run_kops xs (file_new matches max d) in
    exists c' r, k_pop (Some f) c = (c', Ok r) /\ k_dir c' = delete f (k_dir c) /\ k_getitem c' (Some f) = Err KeyError.
  Proof.
    cbv zeta. set (c := run_kops xs (file_new matches max d)).
    pose proof (file_kinv matches d max xs) as [Hc _ _ _ _ _]. fold c in Hc. cbn [k_class file_new] in Hc.
    destruct (k_pop_state (Some f) c) as [r E]; [by right|]. rewrite E. rewrite Hc. do 2 eexists. split_and!; [done|done|].
    unfold CacheModel.k_getitem. cbn [k_data k_class k_dir]. by rewrite !lookup_delete.
  Qed.

  Lemma file_others matches d max xs f : f ∉ put_names xs \/ matches f = false -> f ∉ pop_names xs ->
    k_dir (run_kops xs (file_new matches max d)) !! f = d !! f.
  Proof.
    intros Hf Hp. destruct (finv_run matches d max xs) as [_ _ _ _ _ _ Ho]. rewrite (Ho f Hf). by rewrite decide_False.
  Qed.

  (** C42 *)
  Lemma file_len matches d max xs : let c := run_kops xs (file_new matches max d) in
    k_len c = size (message_files matches d) /\
    k_keyset c = set_map Some (message_files matches (k_dir c)).
  Proof.
    cbv zeta. pose proof (file_kinv matches d max xs) as [Hc _ _ _ _ _]. cbn [k_class file_new] in Hc.
    unfold k_len, k_keyset. by rewrite Hc.
  Qed.

  Lemma file_len_disagrees (matches : codes -> bool) d max f m : matches f = true -> d !! f = None ->
    let c := run_kops [KPut (Some f) m] (file_new matches max d) in
    size (message_files matches (k_dir c)) = S (k_len c).
  Proof.
    intros Hf Hd. cbv zeta.
    set (c := run_kops [KPut (Some f) m] (file_new matches max d)).
    assert (k_dir c = <[f := as_bytes em (m_content m)]> d) as Edir.
    { unfold c, CacheModel.run_kops. cbn [foldl CacheModel.run_kop]. unfold CacheModel.k_put. cbn [k_class file_new file_put].
      rewrite Hf. unfold mbind. rewrite naive_put_state; [|by right|].
      - cbn [fst]. unfold evicted. cbn [k_max file_new k_keys app head]. destruct (over max _); cbn [k_dir k_class]; [|done].
        cbn [file_new k_class k_dir]. by rewrite insert_delete_insert.
      - intros k Hk. by apply elem_of_nil in Hk. }
    pose proof (file_len matches d max [KPut (Some f) m]) as [El _]. fold c in El. rewrite El, Edir.
    assert (message_files matches (<[f:=as_bytes em (m_content m)]> d) = {[f]} ∪ message_files matches d) as ->.
    { apply set_eq. intros g. rewrite elem_of_union, elem_of_singleton, !elem_message_files.
      destruct (decide (g = f)) as [->|Hne]; [rewrite lookup_insert; split; eauto|].
      rewrite lookup_insert_ne by done. naive_solver. }
    rewrite size_union, size_singleton; [done|]. apply disjoint_singleton_l. rewrite elem_message_files, Hd.
    intros [_ [? ?]]. done.
  Qed.
End proofs.
