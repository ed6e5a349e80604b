(** * Lemmas about reading a corpus *)
From Coq Require Import Lia.
From Verif Require Import Py CacheModel CacheSpec CacheProofs MessageModel ReadModel ReadSpec.

Section proofs.
  Context {C T : Type} (em : emailpkg C).
  Notation msg := (msg C T).
  Notation cache := (cache msg).
  Notation kop := (@kop C T).
  Context (order : gset key -> list key) (Hord : order_ok order).
  Implicit Types (c : cache) (k : key) (m : msg) (xs : list kop).

  Lemma keys_list_in c k : k ∈ keys_list order c <-> k ∈ k_keyset c.
  Proof. apply Hord. Qed.

  Lemma contains_spec c k : contains order c k = true <-> k ∈ keys_list order c.
  Proof.
    unfold contains. rewrite existsb_exists. split.
    - intros (k'&Hin&He%bool_decide_eq_true). subst. by apply elem_of_list_In.
    - intros H. exists k. split; [by apply elem_of_list_In|]. by apply bool_decide_eq_true.
  Qed.

  Lemma naive_class max d xs : k_class (run_kops em xs (naive_new max d)) = Naive.
  Proof. assert (kinv (naive_new max d) xs (run_kops em xs (naive_new max d))) as [Hc _ _ _ _ _]; [|done]. by apply kinv_run, kinv_new. Qed.

  Lemma file_class matches max d xs : k_class (run_kops em xs (file_new matches max d)) = k_class (file_new matches max d : cache).
  Proof. by destruct (file_kinv em matches d max xs). Qed.

  Lemma keyset_getitem xs c k : reached em xs c -> k ∈ k_keyset c <-> exists m, k_getitem em c k = Ok m.
  Proof.
    intros [(max&d&->)|(matches&max&d&->)].
    - pose proof (naive_class max d xs) as Hc. unfold k_keyset. rewrite Hc, elem_of_dom. split.
      + intros [m Hm]. exists m. by apply naive_getitem.
      + intros [m Hm]. exists m. by apply naive_getitem in Hm.
    - destruct (file_len em matches d max xs) as [_ ->]. rewrite elem_of_map. split.
      + intros (f&->&Hf). by apply file_getitem.
      + intros [m Hm]. destruct k as [f|].
        * exists f. split; [done|]. apply file_getitem. eauto.
        * exfalso. unfold k_getitem in Hm. pose proof (file_class matches max d xs) as Hc. cbn in Hc. rewrite Hc in Hm.
          destruct (k_data _ !! None) as [m'|] eqn:Ed; [|done].
          pose proof (file_kinv em matches d max xs) as [_ _ Hn Hs _ _]. unfold no_none in Hn. rewrite Hc in Hn.
          assert (None ∈ dom (k_data (run_kops em xs (file_new matches max d)))) as Hin by (apply elem_of_dom; eauto).
          apply Hs, Hn in Hin. by destruct Hin as (?&?&?).
  Qed.

  Lemma reading xs c : reached em xs c ->
    NoDup (keys_list order c) /\
    (forall k, contains order c k = true <-> k ∈ keys_list order c) /\
    (forall k, k ∈ keys_list order c <-> exists m, k_getitem em c k = Ok m) /\
    (forall k, k ∉ keys_list order c -> k_getitem em c k = Err KeyError) /\
    (forall k dflt, k_get em c k dflt = Ok (match k_getitem em c k with Ok m => Some m | Err _ => dflt end)).
  Proof.
    intros H.
    assert (forall k, k_getitem em c k = Err KeyError \/ exists m, k_getitem em c k = Ok m) as Hcase.
    { intros k. unfold k_getitem. destruct (k_data c !! k); [eauto|]. destruct (k_class c), k; eauto.
      destruct (k_dir c !! _); [|eauto]. destruct (matches _); eauto. }
    split_and!.
    - apply Hord.
    - apply contains_spec.
    - intros k. rewrite keys_list_in. by eapply keyset_getitem.
    - intros k Hk. destruct (Hcase k) as [|Hm]; [done|]. exfalso. apply Hk, keys_list_in. by eapply keyset_getitem.
    - intros k dflt. unfold k_get. destruct (Hcase k) as [->|[m ->]]; done.
  Qed.

  Lemma size_length c : length (keys_list order c) = size (k_keyset c).
  Proof.
    destruct (Hord (k_keyset c)) as [Hnd Hin]. unfold keys_list.
    assert (k_keyset c = list_to_set (order (k_keyset c))) as E by (apply set_eq; intros x; by rewrite elem_of_list_to_set, Hin).
    rewrite E at 2. by rewrite size_list_to_set.
  Qed.

  Lemma naive_values max d xs : let c := run_kops em xs (naive_new max d) in
    k_len c = length (keys_list order c) /\
    exists ms, k_values em order c = (ms, None) /\ Forall2 (fun k m => k_getitem em c k = Ok m) (keys_list order c) ms.
  Proof.
    cbv zeta. set (c := run_kops em xs (naive_new max d)). pose proof (naive_class max d xs) as Hc. fold c in Hc. split.
    - rewrite size_length. unfold k_len, k_keyset. rewrite Hc. by rewrite size_dom.
    - unfold k_values. rewrite Hc. eexists. split; [done|].
      assert (forall k, k ∈ keys_list order c -> is_Some (k_data c !! k)) as Hk.
      { intros k Hk%keys_list_in. unfold k_keyset in Hk. rewrite Hc in Hk. by apply elem_of_dom. }
      induction (keys_list order c) as [|k l IH]; [constructor|]. cbn [omap list_omap].
      destruct (Hk k) as [m Hm]; [left|]. cbn. rewrite Hm. constructor; [by apply naive_getitem|].
      apply IH. intros k' Hk'. apply Hk. by right.
  Qed.

  Lemma file_value_ok f b : f ∉ reserved_ids -> file_value (T := T) em f b = Ok (Msg (Some f) (parse em b) false None).
  Proof. intros H. unfold file_value, set_id. cbn [g_id]. by rewrite bool_decide_eq_false_2. Qed.

  Lemma file_value_reserved f b : f ∈ reserved_ids -> file_value (T := T) em f b = Err ValueError.
  Proof. intros H. unfold file_value, set_id. cbn [g_id]. by rewrite bool_decide_eq_true_2. Qed.

  Lemma file_values_ok (dir : gmap codes codes) ks :
    (forall k, k ∈ ks -> exists f b, k = Some f /\ dir !! f = Some b /\ f ∉ reserved_ids) ->
    exists ms, file_values (T := T) em dir ks = (ms, None) /\
      Forall2 (fun k m => exists f b, k = Some f /\ dir !! f = Some b /\ m = Msg (Some f) (parse em b) false None) ks ms.
  Proof.
    induction ks as [|k ks IH]; intros H; [exists []; split; [done|constructor]|].
    destruct (H k) as (f&b&->&Hb&Hr); [left|]. destruct IH as (ms&E&F); [intros; apply H; by right|].
    cbn [file_values]. rewrite Hb, (file_value_ok f b Hr), E. eexists. split; [done|]. constructor; [eauto 10|done].
  Qed.

  Lemma file_values_reserved (dir : gmap codes codes) ks :
    (forall k, k ∈ ks -> exists f b, k = Some f /\ dir !! f = Some b) ->
    (exists f, Some f ∈ ks /\ f ∈ reserved_ids) ->
    exists ms, file_values (T := T) em dir ks = (ms, Some ValueError).
  Proof.
    induction ks as [|k ks IH]; intros H (f&Hf&Hr); [by apply elem_of_nil in Hf|].
    destruct (H k) as (g&b&->&Hb); [left|]. cbn [file_values]. rewrite Hb.
    destruct (decide (g ∈ reserved_ids)) as [Hg|Hg].
    - rewrite (file_value_reserved g b Hg). eauto.
    - rewrite (file_value_ok g b Hg). destruct IH as [ms E].
      + intros; apply H; by right.
      + exists f. apply elem_of_cons in Hf as [[= ->]|Hf]; [done|]. done.
      + rewrite E. eauto.
  Qed.

  Lemma file_keys matches max d xs k : let c := run_kops em xs (file_new matches max d) in
    k ∈ keys_list order c <-> exists f b, k = Some f /\ k_dir c !! f = Some b /\ matches f = true.
  Proof.
    cbv zeta. rewrite keys_list_in. destruct (file_len em matches d max xs) as [_ ->]. rewrite elem_of_map. split.
    - intros (f&->&[Hf [b Hb]]%elem_message_files). eauto.
    - intros (f&b&->&Hb&Hf). exists f. split; [done|]. apply elem_message_files. eauto.
  Qed.

  Lemma values_of_files matches max d xs : let c := run_kops em xs (file_new matches max d) in
    (forall f, f ∈ message_files matches (k_dir c) -> f ∉ reserved_ids) ->
    exists ms, k_values em order c = (ms, None) /\
      Forall2 (fun k m => exists f b, k = Some f /\ k_dir c !! f = Some b /\ m = Msg (Some f) (parse em b) false None) (keys_list order c) ms.
  Proof.
    cbv zeta. set (c := run_kops em xs (file_new matches max d)). intros Hr.
    pose proof (file_class matches max d xs) as Hc. fold c in Hc. cbn in Hc.
    unfold k_values. rewrite Hc. apply file_values_ok. intros k Hk. apply file_keys in Hk as (f&b&->&Hb&Hf). fold c in Hb.
    exists f, b. split_and!; [done|done|]. apply Hr, elem_message_files. eauto.
  Qed.

  Lemma values_raise matches max d xs : let c := run_kops em xs (file_new matches max d) in
    (exists f, f ∈ message_files matches (k_dir c) /\ f ∈ reserved_ids) ->
    (exists ms, k_values em order c = (ms, Some ValueError)) /\ remove_values em order c = (c, Err ValueError).
  Proof.
    cbv zeta. set (c := run_kops em xs (file_new matches max d)). intros (f&[Hf [b Hb]]%elem_message_files&Hr).
    pose proof (file_class matches max d xs) as Hc. fold c in Hc. cbn in Hc.
    assert (exists ms, k_values em order c = (ms, Some ValueError)) as [ms E].
    { unfold k_values. rewrite Hc. apply file_values_reserved.
      - intros k Hk. apply file_keys in Hk as (g&b'&->&Hb'&_). eauto.
      - exists f. split; [|done]. apply file_keys. eauto. }
    split; [eauto|]. unfold remove_values. by rewrite E.
  Qed.

  Lemma values_bytes matches max d xs : email_ok em -> let c := run_kops em xs (file_new matches max d) in
    (forall f, f ∈ message_files matches (k_dir c) -> f ∉ reserved_ids) ->
    exists ms, k_values em order c = (ms, None) /\
      Forall2 (fun k m => m_id m = k /\ exists m', k_getitem em c k = Ok m' /\
        as_bytes em (m_content m) = as_bytes em (m_content m')) (keys_list order c) ms.
  Proof.
    intros Hem. cbv zeta. set (c := run_kops em xs (file_new matches max d)). intros Hr.
    destruct (values_of_files matches max d xs Hr) as (ms&E&F). fold c in E, F. exists ms. split; [done|].
    assert (forall k, k ∈ keys_list order c -> exists m, k_getitem em c k = Ok m) as Hk.
    { intros k Hk%keys_list_in. apply (keyset_getitem xs); [|done]. right. exists matches, max, d. done. }
    pose proof (file_class matches max d xs) as Hc. fold c in Hc. cbn in Hc.
    destruct (finv_run em matches d max xs) as [_ _ _ Hd _ _ _]. fold c in Hd.
    apply Forall2_same_length_lookup. split; [by eapply Forall2_length|]. intros i k m Hi Hm.
    destruct (Forall2_lookup_lr _ _ _ _ _ _ F Hi Hm) as (f&b&->&Hb&->). split; [done|].
    destruct (Hk (Some f)) as [m' Em]; [by eapply elem_of_list_lookup_2|]. exists m'. split; [done|]. cbn [m_content].
    unfold k_getitem in Em. destruct (k_data c !! Some f) as [m0|] eqn:E0.
    - injection Em as ->. apply Hd in E0. rewrite E0 in Hb. injection Hb as <-. apply Hem.
    - rewrite Hc, Hb in Em. destruct (matches f); [|done]. by injection Em as <-.
  Qed.

  (** ** Removing all messages *)
  Lemma pop_files (ms : list msg) : forall c matches n, k_class c = File matches n ->
    (forall m, m ∈ ms -> exists f, m_id m = Some f) ->
    exists c', mfor ms (fun m => mbind (k_pop (m_id m)) (fun _ => mret tt)) c = (c', Ok tt) /\
      k_class c' = k_class c /\
      forall f, k_dir c' !! f = if decide (Some f ∈ m_id <$> ms) then None else k_dir c !! f.
  Proof.
    induction ms as [|m ms IH]; intros c matches n Hc Hid.
    - exists c. split_and!; [done|done|]. intros f. by rewrite decide_False by apply not_elem_of_nil.
    - cbn [mfor]. destruct (Hid m) as [f Ef]; [left|]. destruct (k_pop_state (m_id m) c) as [r E]; [right; by rewrite Ef|].
      unfold mbind at 1 2. rewrite E. cbn [mret]. rewrite Hc, Ef.
      match goal with |- context [mfor ms _ ?c1] => destruct (IH c1 matches n) as (c'&E'&H1&H2) end; [done| |].
      { intros m' Hm'. apply Hid. by right. }
      exists c'. split_and!; [exact E'|done|]. intros g. rewrite H2. cbn [k_dir]. rewrite fmap_cons, Ef.
      destruct (decide (Some g ∈ m_id <$> ms)) as [Hg|Hg].
      + rewrite decide_True; [done|]. by right.
      + destruct (decide (g = f)) as [->|Hne].
        * rewrite lookup_delete, decide_True; [done|]. left.
        * rewrite lookup_delete_ne by done. rewrite decide_False; [done|].
          rewrite not_elem_of_cons. split; [congruence|done].
  Qed.

  Lemma empty_files matches max d xs : let c := run_kops em xs (file_new matches max d) in
    (forall f, f ∈ message_files matches (k_dir c) -> f ∉ reserved_ids) ->
    exists c', remove_values em order c = (c', Ok tt) /\
      message_files matches (k_dir c') = ∅ /\ (forall f, matches f = false -> k_dir c' !! f = k_dir c !! f) /\
      keys_list order c' = [].
  Proof.
    cbv zeta. set (c := run_kops em xs (file_new matches max d)). intros Hr.
    destruct (values_of_files matches max d xs Hr) as (ms&E&F). fold c in E, F.
    pose proof (file_class matches max d xs) as Hc. fold c in Hc. cbn in Hc.
    assert (m_id <$> ms = keys_list order c) as Eid.
    { clear E. induction F as [|k m ks ms (f&b&->&_&->) F IH]; [done|]. rewrite fmap_cons. by rewrite IH. }
    destruct (pop_files ms c _ _ Hc) as (c'&E'&H1&H2).
    { intros m Hm. assert (m_id m ∈ keys_list order c) as Hk by (rewrite <- Eid; by apply elem_of_list_fmap_1).
      apply file_keys in Hk as (f&b&->&_). eauto. }
    rewrite Eid in H2. exists c'. unfold remove_values. rewrite E.
    assert (message_files matches (k_dir c') = ∅) as Hemp.
    { apply set_eq. intros f. split; [|by intros []%elem_of_empty]. intros [Hf [b Hb]]%elem_message_files. exfalso.
      rewrite H2 in Hb. destruct (decide _) as [|Hn]; [done|]. apply Hn, file_keys. eauto. }
    split_and!; [done|done| |].
    - intros f Hf. rewrite H2. rewrite decide_False; [done|]. intros (g&b&[= <-]&_&?)%file_keys. congruence.
    - assert (k_keyset c' = ∅) as Hk.
      { unfold k_keyset. rewrite H1, Hc, Hemp. apply set_map_empty. }
      unfold keys_list. rewrite Hk. destruct (order ∅) as [|k l] eqn:El; [done|].
      assert (k ∈ order ∅) as Hin by (rewrite El; left). apply Hord in Hin. by apply elem_of_empty in Hin.
  Qed.

  Lemma by_key_fails (matches : codes -> bool) max d : message_files matches d <> ∅ ->
    let c := file_new matches max d in
    exists c', remove_by_key em order c = (c', Err TypeError) /\ k_dir c' = d.
  Proof.
    intros Hne. cbv zeta. set (c := file_new matches max d : cache). unfold remove_by_key.
    assert (forall k, k ∈ keys_list order c <-> exists f b, k = Some f /\ d !! f = Some b /\ matches f = true) as Hk
      by exact (file_keys matches max d []).
    destruct (keys_list order c) as [|k l] eqn:El.
    - exfalso. apply Hne. apply set_eq. intros f. split; [|by intros []%elem_of_empty].
      intros [Hf [b Hb]]%elem_message_files. assert (Some f ∈ []) as Hin by (apply Hk; eauto). by apply elem_of_nil in Hin.
    - destruct (Hk k) as [Hk1 _]. destruct Hk1 as (f&b&->&Hb&Hf); [left|]. cbn [mfor]. unfold mbind at 1.
      assert (k_getitem em c (Some f) = Ok (from_path em b)) as Eg.
      { unfold k_getitem, c. cbn [file_new k_data k_class k_dir]. by rewrite lookup_empty, Hb, Hf. }
      rewrite Eg. unfold from_path. cbn [m_id]. unfold mbind, k_pop, c. cbn. eexists. split; reflexivity.
  Qed.

  (** ** The default corpus *)
  Lemma own_ids_last xs k m : own_ids xs -> last_put xs k = Some m -> m_id m = k.
  Proof.
    induction xs as [|x xs IH]; [done|]. intros [Hx Hxs]%Forall_cons. cbn [last_put].
    destruct (last_put xs k) as [m'|] eqn:E; [intros [= ->]; by apply IH|].
    destruct x as [k' m'| |]; [|done|done]. destruct (decide (k' = k)) as [<-|]; [|done]. intros [= ->]. done.
  Qed.

  Lemma pop_naive (ms : list msg) : forall c, k_class c = Naive ->
    exists c', mfor ms (fun m => mbind (k_pop (m_id m)) (fun _ => mret tt)) c = (c', Ok tt) /\ k_class c' = Naive /\
      (forall k, k_data c' !! k = if decide (k ∈ m_id <$> ms) then None else k_data c !! k) /\ k_dir c' = k_dir c.
  Proof.
    induction ms as [|m ms IH]; intros c Hc.
    - exists c. split_and!; [done|done| |done]. intros f. by rewrite decide_False by apply not_elem_of_nil.
    - cbn [mfor]. destruct (k_pop_state (m_id m) c) as [r E]; [by left|].
      unfold mbind at 1 2. rewrite E. cbn [mret]. rewrite Hc.
      match goal with |- context [mfor ms _ ?c1] => destruct (IH c1) as (c'&E'&H1&H2&H3) end; [done|].
      exists c'. split_and!; [exact E'|done| |done]. intros g. rewrite H2. cbn [k_data]. rewrite fmap_cons.
      destruct (decide (g ∈ m_id <$> ms)) as [Hg|Hg].
      + rewrite decide_True; [done|]. by right.
      + destruct (decide (g = m_id m)) as [->|Hne].
        * rewrite lookup_delete, decide_True; [done|]. left.
        * rewrite lookup_delete_ne by done. rewrite decide_False; [done|]. rewrite not_elem_of_cons. done.
  Qed.

  Lemma by_key_naive ks : forall c, k_class c = Naive -> NoDup ks ->
    (forall k, k ∈ ks -> exists m, k_data c !! k = Some m /\ m_id m = k) ->
    exists c', mfor ks (fun k c => match k_getitem em c k with
        | Ok m => mbind (k_pop (m_id m)) (fun _ => mret tt) c
        | Err e => (c, Err e)
        end) c = (c', Ok tt) /\ k_class c' = Naive /\
      (forall k, k_data c' !! k = if decide (k ∈ ks) then None else k_data c !! k) /\ k_dir c' = k_dir c.
  Proof.
    induction ks as [|k ks IH]; intros c Hc Hnd Hin.
    - exists c. split_and!; [done|done| |done]. intros f. by rewrite decide_False by apply not_elem_of_nil.
    - apply NoDup_cons in Hnd as [Hk Hnd]. destruct (Hin k) as (m&Em&Eid); [left|].
      cbn [mfor]. unfold mbind at 1. assert (k_getitem em c k = Ok m) as -> by (by apply naive_getitem).
      destruct (k_pop_state (m_id m) c) as [r E]; [by left|]. unfold mbind at 1. rewrite E. cbn [mret]. rewrite Hc, Eid.
      match goal with |- context [mfor ks _ ?c1] => destruct (IH c1) as (c'&E'&H1&H2&H3) end; [done|done| |].
      { intros k' Hk'. destruct (Hin k') as (m'&Em'&Eid'); [by right|]. exists m'. split; [|done]. cbn [k_data].
        rewrite lookup_delete_ne; [done|]. by intros ->. }
      exists c'. split_and!; [exact E'|done| |done]. intros g. rewrite H2. cbn [k_data].
      destruct (decide (g ∈ ks)) as [Hg|Hg].
      + rewrite decide_True; [done|]. by right.
      + destruct (decide (g = k)) as [->|Hne].
        * rewrite lookup_delete, decide_True; [done|]. left.
        * rewrite lookup_delete_ne by done. rewrite decide_False; [done|]. rewrite not_elem_of_cons. done.
  Qed.

  Lemma naive_empty_keys c : k_class c = Naive -> (forall k, k_data c !! k = None) -> k_len c = 0 /\ keys_list order c = [].
  Proof.
    intros Hc Hd. assert (k_data c = ∅) as E by (by apply map_eq; intros k; rewrite Hd, lookup_empty).
    assert (k_keyset c = ∅) as Hk by (unfold k_keyset; rewrite Hc, E; apply dom_empty_L).
    unfold k_len. rewrite Hc, E. split; [done|]. unfold keys_list. rewrite Hk.
    destruct (order ∅) as [|k l] eqn:El; [done|].
    assert (k ∈ order ∅) as Hin by (rewrite El; left). apply Hord in Hin. by apply elem_of_empty in Hin.
  Qed.

  Lemma empty_default max d xs : own_ids xs -> let c := run_kops em xs (naive_new max d) in
    (exists c', remove_values em order c = (c', Ok tt) /\ k_len c' = 0 /\ keys_list order c' = []) /\
    exists c', remove_by_key em order c = (c', Ok tt) /\ k_len c' = 0 /\ keys_list order c' = [].
  Proof.
    intros Ho. cbv zeta. set (c := run_kops em xs (naive_new max d)).
    pose proof (naive_class max d xs) as Hc. fold c in Hc.
    assert (kinv (naive_new max d) xs c) as [_ _ _ _ _ Hv] by (by apply kinv_run, kinv_new).
    assert (forall k, k ∈ keys_list order c <-> exists m, k_data c !! k = Some m /\ m_id m = k) as Hk.
    { intros k. rewrite keys_list_in. unfold k_keyset. rewrite Hc, elem_of_dom. split.
      - intros [m Hm]. exists m. split; [done|]. eapply own_ids_last; [done|]. by apply Hv.
      - intros (m&Hm&_). eauto. }
    assert (forall k, (if decide (k ∈ keys_list order c) then None else k_data c !! k) = None) as Hnone.
    { intros k. destruct (decide _) as [|Hn]; [done|]. destruct (k_data c !! k) as [m|] eqn:E; [|done].
      exfalso. apply Hn, Hk. exists m. split; [done|]. eapply own_ids_last; [done|]. by apply Hv. }
    split.
    - destruct (naive_values max d xs) as [_ (ms&E&F)]. fold c in E, F.
      assert (m_id <$> ms = keys_list order c) as Eid.
      { assert (forall k, k ∈ keys_list order c -> exists m, k_data c !! k = Some m /\ m_id m = k) as Hk' by (intros k; apply Hk).
        clear E Hk Hnone. revert Hk'. induction F as [|k m ks ms Hm F IH]; intros Hk'; [done|]. rewrite fmap_cons. f_equal.
        - destruct (Hk' k) as (m'&Em&Eid); [left|]. apply naive_getitem in Hm; [|done]. congruence.
        - apply IH. intros k' Hin. apply Hk'. by right. }
      destruct (pop_naive ms c Hc) as (c'&E'&H1&H2&_). exists c'. unfold remove_values. rewrite E. split; [done|].
      apply naive_empty_keys; [done|]. intros k. by rewrite H2, Eid.
    - destruct (by_key_naive (keys_list order c) c Hc) as (c'&E'&H1&H2&_); [apply Hord|intros k; apply Hk|].
      exists c'. split; [exact E'|]. apply naive_empty_keys; [done|]. intros k. by rewrite H2.
  Qed.
End proofs.

(** Messages put under another key stay. *)
Lemma foreign_key_stays {C T : Type} (em : emailpkg C) (order : gset key -> list key) (m : msg C T) s d : order_ok order -> m_id m <> Some s ->
  let c := run_kops em [KPut (Some s) m] (naive_new None d) in
  exists c', remove_values em order c = (c', Ok tt) /\ k_getitem em c' (Some s) = Ok m.
Proof.
  intros Hord Hne. cbv zeta. set (c := run_kops em [KPut (Some s) m] (naive_new None d)).
  assert (k_data c = {[Some s := m]}) as Ed by done.
  destruct (naive_values em order Hord None d [KPut (Some s) m]) as [_ (ms&E&F)]. fold c in E, F.
  assert (k_class c = Naive) as Hc by done.
  assert (forall m', m' ∈ ms -> m' = m) as Hms.
  { intros m' Hin. apply elem_of_list_lookup in Hin as [i Hi].
    destruct (Forall2_lookup_r _ _ _ _ _ F Hi) as (k&_&Hk). apply naive_getitem in Hk; [|done].
    rewrite Ed in Hk. by apply lookup_singleton_Some in Hk as [_ ->]. }
  destruct (pop_naive ms c Hc) as (c'&E'&H1&H2&_). exists c'. unfold remove_values. rewrite E. split; [done|].
  apply naive_getitem; [done|]. rewrite H2, Ed, lookup_singleton. rewrite decide_False; [done|].
  intros (m'&Hm&Hin)%elem_of_list_fmap. apply Hms in Hin as ->. congruence.
Qed.

Lemma elements_ok : order_ok elements.
Proof. intros s. split; [apply NoDup_elements|]. intros k. apply elem_of_elements. Qed.
