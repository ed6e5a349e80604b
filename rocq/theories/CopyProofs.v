(** * Lemmas about copies of messages and messages that cannot be written *)
From Coq Require Import Lia String.
From Verif Require Import Py NumModel ClassifierModel StripModel RaiseModel RaiseProofs CacheModel CacheSpec CacheProofs
  MessageModel CopyModel.

Lemma copy_keeps {C : Type} (m : mobj C) :
  (b_id (copy m) = b_id m /\ b_c (copy m) = b_c m /\ b_t (copy m) = b_t m) /\
  (forall B (f : C -> res B), b_read f (copy m) = Err AttributeError) /\
  forall m' : mobj C, b_id m' = b_id m -> b_c m' = b_c m -> b_t m' = b_t m -> copy m' = copy m.
Proof. split_and!; try done. destruct m, m'; cbn. by intros -> -> ->. Qed.

Lemma copy_learn {A : num} {St C : Type} (bk : backend St) it (tok : C -> gen) (m : mobj C) is_spam (o : obj A St) :
  o_bigrams o <> None ->
  exists o', learn_gen bk it (b_tokens tok (copy m)) is_spam o = (o', Err AttributeError) /\
    o_nspam o' = (o_nspam o + if is_spam then 1 else 0)%Z /\ o_nham o' = (o_nham o + if is_spam then 0 else 1)%Z /\
    o_store o' = o_store o.
Proof.
  intros Ho. destruct (learn_gen_raises bk it [] AttributeError is_spam o Ho) as (o'&E&H1&H2&H3&_).
  exists o'. done.
Qed.

Section put.
  Context {C T : Type} (em : emailpkg C) (out : msg C T -> res codes).
  Notation msg := (msg C T).
  Notation cache := (cache msg).
  Notation kop := (@kop C T).
  Implicit Types (c : cache) (k : key) (m : msg) (xs : list kop).

  Record einv (matches : codes -> bool) (max : option Z) xs c : Prop := {
    e_class : exists n, k_class c = File matches n;
    e_max : k_max c = max;
    e_names : forall k, k ∈ k_keys c -> exists f, k = Some f /\ matches f = true;
    e_put : forall f b, f ∈ put_names xs -> matches f = true -> k_dir c !! f = Some b ->
      exists m, last_put xs (Some f) = Some m /\ (out m = Ok b \/ (exists e, out m = Err e) /\ b = [])
  }.

  Lemma einv_no_none matches max xs c : einv matches max xs c -> no_none c.
  Proof. intros [[n Hc] _ Hn _]. unfold no_none. by rewrite Hc. Qed.

  (** The directory after NaiveCache.put, and the keys *)
  Lemma naive_put_file matches max xs c f m : einv matches max xs c -> matches f = true ->
    exists c', naive_put (Some f) m c = (c', Ok tt) /\ k_class c' = k_class c /\ k_max c' = k_max c /\
      (forall k, k ∈ k_keys c' -> k ∈ k_keys c ++ [Some f]) /\
      (forall g b, k_dir c' !! g = Some b -> k_dir c !! g = Some b) /\
      (max = None -> k_dir c' = k_dir c /\ k_data c' = <[Some f := m]> (k_data c)).
  Proof.
    intros Hi Hf. pose proof (einv_no_none _ _ _ _ Hi) as Hnn. destruct Hi as [[n Hc] Hm Hn _].
    rewrite naive_put_state by (by right || done). eexists. split; [done|].
    destruct (evicted c (Some f)) as [k0|] eqn:Ee; cbn [k_class k_max k_keys k_dir k_data].
    - split_and!; [done|done| | |].
      + intros k Hk. destruct (k_keys c ++ [Some f]); [done|]. by right.
      + intros g b. rewrite Hc. destruct k0; [|done]. by intros [_ ?]%lookup_delete_Some.
      + intros ->. unfold evicted, over in Ee. by rewrite Hm in Ee.
    - split_and!; auto.
  Qed.

  Lemma einv_put matches max xs c k m : einv matches max xs c ->
    einv matches max (xs ++ [KPut k m]) (fst (k_put_e out k m c)).
  Proof.
    intros Hi. pose proof Hi as [[n Hc] Hm Hn Hp]. unfold k_put_e. rewrite Hc. unfold file_put_e.
    destruct k as [f|]; cycle 1.
    { cbn [fst]. constructor; eauto. intros f b. rewrite put_names_app, last_put_snoc_put.
      intros Hin Hf Hb. rewrite decide_False by done. apply Hp; try done. set_solver. }
    destruct (matches f) eqn:Ef; cycle 1.
    { cbn [fst]. constructor; eauto. intros g b. rewrite put_names_app, put_names_put, last_put_snoc_put.
      intros Hin Hg Hb. destruct (decide (Some f = Some g)) as [[= ->]|]; [congruence|]. apply Hp; try done. set_solver. }
    destruct (naive_put_file _ _ _ _ f m Hi Ef) as (c'&E&E1&E2&E3&E4&_). unfold mbind. rewrite E.
    assert (forall b0, (out m = Ok b0 \/ (exists e, out m = Err e) /\ b0 = []) ->
      einv matches max (xs ++ [KPut (Some f) m]) (Cache (k_class c') (k_keys c') (k_data c') (k_max c') (<[f := b0]> (k_dir c')))) as Hgo.
    { intros b0 Hb0. constructor; cbn [k_class k_max k_keys k_dir].
      - rewrite E1. eauto.
      - congruence.
      - intros k Hk. apply E3, elem_of_app in Hk as [Hk|Hk%elem_of_list_singleton]; [auto|]. subst. eauto.
      - intros g b. rewrite put_names_app, put_names_put, last_put_snoc_put. intros Hin Hg.
        destruct (decide (f = g)) as [<-|Hne].
        + rewrite lookup_insert. intros [= <-]. rewrite decide_True by done. eauto.
        + rewrite lookup_insert_ne by done. rewrite decide_False by congruence. intros Hb. apply Hp; auto. set_solver. }
    destruct (out m) as [b|e] eqn:Eo; cbn [fst]; apply Hgo; eauto.
  Qed.

  Lemma einv_pop matches max xs c k : einv matches max xs c -> einv matches max (xs ++ [KPop k]) (fst (k_pop k c)).
  Proof.
    intros [[n Hc] Hm Hn Hp]. destruct (k_pop_fst k c) as (E1&E2&E3&E4&E5). constructor.
    - rewrite E1. eauto.
    - congruence.
    - intros k'. rewrite E2. intros Hk%remove_first_sub. auto.
    - intros f b. rewrite put_names_app, last_put_snoc_pop, E5, Hc. intros Hin Hf Hb. apply Hp; [set_solver|done|].
      destruct k; [|done]. by apply lookup_delete_Some in Hb as [_ ?].
  Qed.

  Lemma einv_run matches max d xs : einv matches max xs (run_kops_e out xs (file_new matches max d)).
  Proof.
    induction xs as [|x xs IH] using rev_ind.
    - constructor; [cbn; eauto|done| |].
      + intros k H. by apply elem_of_nil in H.
      + intros f b H. by apply elem_of_empty in H.
    - unfold run_kops_e in *. rewrite foldl_app. cbn [foldl]. destruct x as [k m|k|k]; cbn [run_kop_e].
      + by apply einv_put.
      + by apply einv_pop.
      + destruct IH as [? ? ? Hp]. constructor; try done. intros f b. rewrite put_names_app, last_put_snoc_get.
        intros Hin. apply Hp. set_solver.
  Qed.

  (** What is in a file after any history *)
  Lemma files_after matches max d xs f b : f ∈ put_names xs -> matches f = true ->
    k_dir (run_kops_e out xs (file_new matches max d)) !! f = Some b ->
    exists m, last_put xs (Some f) = Some m /\ (out m = Ok b \/ (exists e, out m = Err e) /\ b = []).
  Proof. intros. by eapply (e_put _ _ _ _ (einv_run matches max d xs)). Qed.

  (** A failing add *)
  Lemma failed_add matches max d xs id m f e emit sent :
    matches f = true -> out m = Err e -> (id = Some f \/ id = None /\ m_id m = Some f) ->
    let c := run_kops_e out xs (file_new matches max d) in
    exists c', add_e out id m emit (c, sent) = ((c', sent), Err e) /\
      k_dir c' !! f = Some [] /\ k_getitem em (file_new matches max (k_dir c') : cache) (Some f) = Ok (Msg None (parse em []) false None) /\
      (max = None -> k_getitem em c' (Some f) = Ok m /\ forall g, g <> f -> k_dir c' !! g = k_dir c !! g).
  Proof.
    intros Hf Ho Hid. cbv zeta. set (c := run_kops_e out xs (file_new matches max d)).
    pose proof (einv_run matches max d xs) as Hi. fold c in Hi. pose proof Hi as [[n Hc] Hm _ _].
    destruct (naive_put_file _ _ _ _ f m Hi Hf) as (c1&E&E1&E2&E3&E4&E5).
    exists (Cache (k_class c1) (k_keys c1) (k_data c1) (k_max c1) (<[f := []]> (k_dir c1))).
    assert (match id with None => m_id m | Some s => Some s end = Some f) as Ek by (destruct Hid as [->|[-> ->]]; done).
    unfold add_e. rewrite Ek. cbn [fst snd]. unfold k_put_e. rewrite Hc. unfold file_put_e. rewrite Hf. unfold mbind.
    rewrite E, Ho. split_and!; [done|by cbn [k_dir]; rewrite lookup_insert| |].
    - unfold k_getitem. cbn [file_new k_data k_class k_dir]. rewrite lookup_empty, lookup_insert, Hf. done.
    - intros Hx. destruct (E5 Hx) as [Ed Edata]. split.
      + unfold k_getitem. cbn [k_data]. by rewrite Edata, lookup_insert.
      + intros g Hg. cbn [k_dir]. by rewrite lookup_insert_ne, Ed by done.
  Qed.

  (** When observers are told, and what is on disk when they are *)
  Lemma add_tells matches max d xs id m emit sent c' sent' r :
    let c := run_kops_e out xs (file_new matches max d) in
    add_e out id m emit (c, sent) = ((c', sent'), r) ->
    sent' = sent ++ (match r with Ok _ => if emit : bool then [m] else [] | Err _ => [] end) /\
    (r = Ok tt -> exists f b, (id = Some f \/ id = None /\ m_id m = Some f) /\ matches f = true /\ out m = Ok b /\ k_dir c' !! f = Some b).
  Proof.
    cbv zeta. set (c := run_kops_e out xs (file_new matches max d)). pose proof (einv_run matches max d xs) as Hi. fold c in Hi.
    pose proof Hi as [[n Hc] Hm _ _]. unfold add_e, k_put_e. cbn [fst snd]. rewrite Hc. unfold file_put_e.
    destruct (match id with None => m_id m | Some s => Some s end) as [f|] eqn:Ek.
    2: { intros [= <- <- <-]. by rewrite app_nil_r. }
    destruct (matches f) eqn:Hf. 2: { intros [= <- <- <-]. by rewrite app_nil_r. }
    destruct (naive_put_file _ _ _ _ f m Hi Hf) as (c1&E&_). unfold mbind. rewrite E.
    destruct (out m) as [b|e] eqn:Ho.
    - intros [= <- <- <-]. split; [destruct emit; [done|by rewrite app_nil_r]|]. intros _. exists f, b.
      split; [|split_and!; [done|done|by cbn [k_dir]; rewrite lookup_insert]].
      destruct id; [left; congruence|by right].
    - intros [= <- <- <-]. by rewrite app_nil_r.
  Qed.

  (** When every message can be written, this is the model of CacheModel.v. *)
  Lemma no_failures xs c : (forall m, out m = Ok (as_bytes em (m_content m))) -> run_kops_e out xs c = run_kops em xs c.
  Proof.
    intros Ho. unfold run_kops_e, run_kops. revert c. induction xs as [|x xs IH]; intros c; [done|]. cbn [foldl].
    rewrite IH. f_equal. destruct x as [k m|k|k]; [|done|done]. cbn [run_kop_e run_kop]. unfold k_put_e, k_put.
    destruct (k_class c); [done|]. unfold file_put_e, file_put. destruct k; [|done]. destruct (matches _); [|done].
    unfold mbind. destruct (naive_put _ _ _) as [c' [[]|e]]; [|done]. by rewrite Ho.
  Qed.
End put.

(** ** A witness: messages whose contents may be missing *)
Definition copy_of (m : msg (option codes) Z) : msg (option codes) Z := Msg (m_id m) None (m_has_key m) (m_stamp m).
Definition write (m : msg (option codes) Z) : res codes := match m_content m with Some b => Ok b | None => Err AttributeError end.

Lemma failed_add_destroys :
  ~ forall (matches : codes -> bool) max d xs (m : msg (option codes) Z) e sent c' sent',
  let c := run_kops_e write xs (file_new matches max d) in
  add_e write None m true (c, sent) = ((c', sent'), Err e) -> k_dir c' = k_dir c.
Proof.
  intros H. set (m := Msg (Some (str "a")) (Some (str "text")) false None : msg (option codes) Z).
  set (xs := [KPut (Some (str "a")) m]).
  destruct (failed_add (EmailPkg _ (fun _ => []) (fun _ => None)) write (fun _ => true) None ∅ xs None (copy_of m) (str "a")
    AttributeError true []) as (c'&E&Ea&_); [done|done|by right|].
  apply (H (fun _ => true) None ∅ xs (copy_of m) AttributeError [] c' []) in E. rewrite E in Ea.
  by vm_compute in Ea.
Qed.
