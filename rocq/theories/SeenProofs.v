(** * Lemmas about the headers that the tokenizer looks at *)
From Coq Require Import String.
From Verif Require Import Py NumModel ClassifierModel TrainSpec TrainProofs ScoreSpec ClueProofs ScoreProofs StripModel
  RaiseModel RaiseProofs CdbModel TileProofs TokenModel TokenProofs MessageModel MessageSpec MessageProofs HeadModel HeadProofs
  HeadCallProofs OptProofs TreeModel TreeSpec TreeProofs SeenSpec.

(** ** Reading a header list through [seen] *)
Definition sget (s : list (codes * option hval)) (name : codes) : list hval :=
  omap (fun kv => if same_name kv.1 name then kv.2 else None) s.

Lemma seen_cons mine kv h : seen mine (kv :: h) =
  match seen_header mine kv with Some x => x :: seen mine h | None => seen mine h end.
Proof. reflexivity. Qed.

Lemma sget_seen mine name h : lower name ∈ valued mine ->
  sget (seen mine h) name = (filter (fun kv : codes * hval => same_name kv.1 name = true) h).*2.
Proof.
  intros Hn. induction h as [|[k v] h IH]; [done|]. rewrite seen_cons, filter_cons. unfold seen_header. cbn [fst snd].
  destruct (decide (same_name k name = true)) as [Hs|Hs].
  - pose proof Hs as El. apply same_name_true in El. rewrite El, bool_decide_eq_true_2 by done.
    cbn [sget omap list_omap fst snd]. rewrite Hs. cbn [fmap list_fmap snd]. f_equal. exact IH.
  - apply not_true_is_false in Hs. destruct (bool_decide (lower k ∈ valued mine)).
    + cbn [sget omap list_omap fst snd]. rewrite Hs. exact IH.
    + destruct (bool_decide (lower k ∈ counted)); [cbn [sget omap list_omap fst snd]; rewrite Hs|]; exact IH.
Qed.

Lemma hget_all_seen mine name h : lower name ∈ valued mine -> hget_all h name = fetch <$> sget (seen mine h) name.
Proof. intros Hn. rewrite sget_seen by done. unfold hget_all. by rewrite <- list_fmap_compose. Qed.

Lemma hget_default_all h name d : hget_default h name d = match hget_all h name with [] => d | x :: _ => x end.
Proof.
  induction h as [|[k v] h IH]; [done|]. cbn [hget_default]. unfold hget_all. rewrite filter_cons. cbn [fst].
  destruct (same_name k name) eqn:E.
  - by rewrite decide_True by done.
  - rewrite decide_False by done. exact IH.
Qed.

Lemma counted_safe x : is_safe x = bool_decide (lower x ∈ counted).
Proof. reflexivity. Qed.

Lemma keys_seen mine h : filter (fun x => is_safe x = true) h.*1 = filter (fun x => is_safe x = true) (seen mine h).*1.
Proof.
  induction h as [|[k v] h IH]; [done|]. rewrite seen_cons. unfold seen_header. cbn [fmap list_fmap fst snd].
  rewrite filter_cons. rewrite counted_safe.
  destruct (bool_decide (lower k ∈ valued mine)); [|destruct (bool_decide (lower k ∈ counted)) eqn:E].
  - cbn [fmap list_fmap fst]. rewrite filter_cons, counted_safe.
    destruct (decide (bool_decide (lower k ∈ counted) = true)); [f_equal|]; exact IH.
  - cbn [fmap list_fmap fst]. rewrite filter_cons, counted_safe, E. rewrite !decide_True by done. f_equal. exact IH.
  - rewrite decide_False by done. exact IH.
Qed.

Section headers.
  Context (U : unicode) (E : mailpkg).

  Lemma headers_seen o parts h h' : count_all o = false -> seen (mine_received o) h = seen (mine_received o) h' ->
    tokenize_headers U E o parts h = tokenize_headers U E o parts h'.
  Proof.
    intros Hc Hs.
    assert (forall name, lower name ∈ valued (mine_received o) -> hget_all h name = hget_all h' name) as Ha.
    { intros name Hn. by rewrite !(hget_all_seen (mine_received o)), Hs. }
    assert (forall name d, lower name ∈ valued (mine_received o) -> hget_default h name d = hget_default h' name d) as Hd.
    { intros name d Hn. by rewrite !hget_default_all, Ha. }
    assert (forall name, name ∈ [str "subject"; str "from"; str "to"; str "cc"; str "sender"; str "reply-to"; str "x-mailer"; str "message-id"] ->
      lower name ∈ valued (mine_received o)) as Hv.
    { intros name Hn. unfold valued. apply elem_of_app. left. revert name Hn. apply Forall_forall.
      apply (bool_decide_unpack _). by vm_compute. }
    assert (subject_tokens U E h = subject_tokens U E h') as E1.
    { unfold subject_tokens. rewrite Hd; [done|]. apply Hv. apply (bool_decide_unpack _). by vm_compute. }
    assert (forall f, f ∈ ADDRESS_HEADERS -> field_tokens U E h f = field_tokens U E h' f) as E2.
    { intros f Hf. unfold field_tokens. rewrite Ha; [done|]. apply Hv. revert f Hf. apply Forall_forall.
      apply (bool_decide_unpack _). by vm_compute. }
    assert (hget_all h (str "to") = hget_all h' (str "to")) as Eto.
    { apply Ha, Hv. apply (bool_decide_unpack _). by vm_compute. }
    assert (hget_all h (str "cc") = hget_all h' (str "cc")) as Ecc.
    { apply Ha, Hv. apply (bool_decide_unpack _). by vm_compute. }
    assert (gfor (field_tokens U E h) ADDRESS_HEADERS = gfor (field_tokens U E h') ADDRESS_HEADERS) as E3.
    { revert E2. generalize ADDRESS_HEADERS. intros l. induction l as [|f l IH]; intros E2; [done|].
      cbn [gfor]. rewrite E2 by left. f_equal. apply IH. intros g Hg. apply E2. by right. }
    assert (summary_tokens U E h (sum_prefixes o) (sum_suffixes o) = summary_tokens U E h' (sum_prefixes o) (sum_suffixes o)) as E4.
    { unfold summary_tokens. by rewrite Eto, Ecc. }
    assert (gfor (recipient_tokens h) [str "to"; str "cc"] = gfor (recipient_tokens h') [str "to"; str "cc"]) as E5.
    { cbn [gfor]. unfold recipient_tokens. by rewrite Eto, Ecc. }
    assert (mailer_tokens U h = mailer_tokens U h') as E6.
    { unfold mailer_tokens. rewrite Hd; [done|]. apply Hv. apply (bool_decide_unpack _). by vm_compute. }
    assert (message_id_tokens U h = message_id_tokens U h') as E7.
    { unfold message_id_tokens. rewrite Hd; [done|]. apply Hv. apply (bool_decide_unpack _). by vm_compute. }
    assert ((if mine_received o then gfor (received_tokens U) (hget_all h (str "received")) else gok []) =
            (if mine_received o then gfor (received_tokens U) (hget_all h' (str "received")) else gok [])) as E8.
    { destruct (mine_received o) eqn:Em; [|done]. rewrite Ha; [done|]. apply (bool_decide_unpack _). by vm_compute. }
    assert (count_tokens o h = count_tokens o h') as E9.
    { unfold count_tokens. rewrite Hc. by rewrite !(keys_seen (mine_received o)), Hs. }
    unfold tokenize_headers. by rewrite E1, E3, E4, E5, E6, E7, E8, E9.
  Qed.

  Lemma call_seen o a2b parts h h' texts : count_all o = false -> seen (mine_received o) h = seen (mine_received o) h' ->
    tokenizer_call U E false false o a2b parts h texts = tokenizer_call U E false false o a2b parts h' texts.
  Proof. intros Hc Hs. unfold tokenizer_call. by rewrite (headers_seen o parts h h' Hc Hs). Qed.
End headers.

(** ** Generators with the same words *)
Definition same_words (g g' : gen) : Prop :=
  (g.2 = None <-> g'.2 = None) /\ (g.2 = None -> g'.2 = None -> forall w, w ∈ g.1 <-> w ∈ g'.1).

Lemma words_learn {A : num} it g g' is_spam (ob : obj A (gmap pyword winfo)) :
  set_order_ok it -> same_words g g' -> o_bigrams ob = Some false ->
  let r := learn_gen mem_backend it g is_spam ob in
  let r' := learn_gen mem_backend it g' is_spam ob in
  same_training r.1 r'.1 /\ is_ok r.2 = is_ok r'.2.
Proof.
  intros Hit [Hn Hw] Hb. cbv zeta.
  destruct g as [ws [e|]], g' as [ws' [e'|]]; cbn [fst snd] in Hn, Hw.
  - destruct (learn_gen_raises mem_backend it ws e is_spam ob) as (o1&->&A1&A2&A3&A4&_); [by rewrite Hb|].
    destruct (learn_gen_raises mem_backend it ws' e' is_spam ob) as (o2&->&B1&B2&B3&B4&_); [by rewrite Hb|].
    cbn [fst snd is_ok]. split; [|done]. unfold same_training. split_and!; congruence.
  - by destruct (proj2 Hn eq_refl).
  - by destruct (proj1 Hn eq_refl).
  - specialize (Hw eq_refl eq_refl).
    assert (same_training (train it [(SIter ws, is_spam)] ob) (train it [(SIter ws', is_spam)] ob)) as Ht.
    { apply (train_order it it false); [done..|]. exists [(SIter ws, is_spam)]. split; [done|].
      constructor; [|constructor]. split; [done|]. exact Hw. }
    unfold train in Ht. cbn [fmap list_fmap fst snd run run_call] in Ht.
    rewrite !learn_gen_ok. destruct (learn_mem it Hit (SIter ws) is_spam false ob Hb) as (m1&E1&_).
    destruct (learn_mem it Hit (SIter ws') is_spam false ob Hb) as (m2&E2&_).
    rewrite E1, E2 in Ht |- *. cbn [fst snd is_ok] in *. done.
Qed.

Lemma words_score {A : num} (HA : total_num A) it0 it g g' hist :
  set_order_ok it0 -> set_order_ok it -> same_words g g' ->
  let ob := fst (run mem_backend it0 hist (c_new false ∅ : obj A (gmap pyword winfo))) in
  same_result (score_gen mem_backend it g ob).2 (score_gen mem_backend it g' ob).2.
Proof.
  intros H0 Hit [Hn Hw]. cbv zeta.
  destruct g as [ws [e|]], g' as [ws' [e'|]]; cbn [fst snd] in Hn, Hw.
  - done.
  - by destruct (proj2 Hn eq_refl).
  - by destruct (proj1 Hn eq_refl).
  - cbn [score_gen]. apply (score_same HA it0 it it hist (SIter ws) (SIter ws')); try done. by apply Hw.
Qed.

(** ** Messages that look the same *)
Section messages.
  Context (U : unicode) (E : mailpkg) (o : topts) (a2b : codes -> res codes).

  Definition with_headers (h : headers) (m : part) : part := match m with Part x _ b => Part x h b end.

  Lemma with_headers_alike h m : alike m (with_headers h m).
  Proof.
    destruct m as [x h0 [b|ps]]; cbn [with_headers]; constructor; [done|..];
      intros p Hp; exists p; split; [done|apply alike_refl|done|apply alike_refl].
  Qed.

  Lemma alike_trans_headers m m' h : alike m m' -> alike m (with_headers h m').
  Proof. intros H. destruct H; cbn [with_headers]; by constructor. Qed.

  Lemma seen_tokens order order' m m' : parts_order_ok order -> parts_order_ok order' ->
    count_all o = false -> seen (mine_received o) (part_headers m) = seen (mine_received o) (part_headers m') -> alike m m' ->
    same_words (tokenize_message U E order o a2b m) (tokenize_message U E order' o a2b m').
  Proof.
    intros Ho Ho' Hc Hs Ha. unfold tokenize_message.
    rewrite (call_seen U E o a2b _ _ _ _ Hc Hs).
    destruct (alike_sub order order' m m' Ho Ho' Ha) as [H1 H2].
    destruct (alike_sub order' order m' m Ho' Ho (alike_sym _ _ Ha)) as [H1' H2'].
    apply call_set; [intros x|intros t]; split; auto.
  Qed.

  Lemma seen_learn {A : num} it order order' m m' is_spam (ob : obj A (gmap pyword winfo)) :
    parts_order_ok order -> parts_order_ok order' -> set_order_ok it -> count_all o = false ->
    seen (mine_received o) (part_headers m) = seen (mine_received o) (part_headers m') -> alike m m' -> o_bigrams ob = Some false ->
    let r := learn_gen mem_backend it (tokenize_message U E order o a2b m) is_spam ob in
    let r' := learn_gen mem_backend it (tokenize_message U E order' o a2b m') is_spam ob in
    same_training r.1 r'.1 /\ is_ok r.2 = is_ok r'.2.
  Proof. intros Ho Ho' Hit Hc Hs Ha Hb. apply words_learn; [done| |done]. by apply seen_tokens. Qed.

  Lemma seen_score {A : num} (HA : total_num A) it0 it order order' m m' hist :
    parts_order_ok order -> parts_order_ok order' -> set_order_ok it0 -> set_order_ok it -> count_all o = false ->
    seen (mine_received o) (part_headers m) = seen (mine_received o) (part_headers m') -> alike m m' ->
    let ob := fst (run mem_backend it0 hist (c_new false ∅ : obj A (gmap pyword winfo))) in
    same_result (score_gen mem_backend it (tokenize_message U E order o a2b m) ob).2
                (score_gen mem_backend it (tokenize_message U E order' o a2b m') ob).2.
  Proof. intros Ho Ho' H0 Hit Hc Hs Ha. apply (words_score HA it0 it); [done..|]. by apply seen_tokens. Qed.
End messages.

(** ** The headers of the filter are not seen *)
Lemma filter_header_unseen mine k v : is_filter_header k -> seen_header mine (k, v) = None.
Proof.
  unfold is_filter_header, seen_header. cbn [fst snd]. intros H.
  rewrite !bool_decide_eq_false_2; [done|..]; revert H; generalize (lower k); apply Forall_forall.
  - apply (bool_decide_unpack _). by vm_compute.
  - destruct mine; apply (bool_decide_unpack _); by vm_compute.
Qed.

Lemma seen_others mine h h' : others h = others h' -> seen mine h = seen mine h'.
Proof.
  assert (forall h, seen mine h = seen mine (others h)) as H.
  { clear. intros h. induction h as [|[k v] h IH]; [done|]. unfold others. rewrite filter_cons. cbn [fst].
    rewrite seen_cons. destruct (decide (~ is_filter_header k)) as [Hk|Hk].
    - rewrite seen_cons. destruct (seen_header mine (k, v)); [f_equal|]; exact IH.
    - rewrite filter_header_unseen; [exact IH|]. destruct (decide (is_filter_header k)); [done|by destruct Hk]. }
  intros He. by rewrite (H h), (H h'), He.
Qed.

Lemma others_hset h n v : is_filter_header n -> others (hset h n v) = others h.
Proof.
  intros Hn. unfold hset. rewrite others_app. rewrite (others_nil [(n, v)]); [by rewrite app_nil_r|]. by constructor.
Qed.

Section adding.
  Context (hstr : codes -> codes) (A : num) (fs : F A -> codes) (lv : F A -> nat) (fc : pyword -> F A -> codes).
  Notation add := (add_sb_headers hstr A fs lv fc).

  (** What a step keeps, whatever it returns *)
  Definition keeps {X} (f : M mail X) : Prop := forall m, others (g_h (f m).1) = others (g_h m).
  Lemma keeps_bind {X Y} (f : M mail X) (k : X -> M mail Y) : keeps f -> (forall x, keeps (k x)) -> keeps (mbind f k).
  Proof.
    intros Hf Hk m. unfold mbind. specialize (Hf m). destruct (f m) as [m1 [x|e]]; cbn [fst] in *; [|done]. by rewrite Hk.
  Qed.
  Lemma keeps_if {X} (b : bool) (f g : M mail X) : keeps f -> keeps g -> keeps (if b then f else g).
  Proof. by destruct b. Qed.
  Lemma keeps_ret {X} (x : X) : keeps (mret x). Proof. by intros m. Qed.
  Lemma keeps_hset n v : is_filter_header n -> keeps (m_hset n v).
  Proof. intros Hn m. unfold m_hset. cbn [fst g_h]. by apply others_hset. Qed.

  Lemma filter_names : Forall is_filter_header [n_class; n_score; n_level; n_evidence; n_mailid; n_trained].
  Proof. apply (bool_decide_unpack _). by vm_compute. Qed.

  Lemma add_keeps x clues o m :
    (forall c, g_c (add x clues o m).1 = Some c -> c ∉ o_notate_to A o /\ c ∉ o_notate_subject A o) ->
    others (g_h (add x clues o m).1) = others (g_h m).
  Proof.
    pose proof filter_names as Hf. rewrite !Forall_cons in Hf. destruct Hf as (F1&F2&F3&F4&F5&F6&_).
    intros Hc.
    assert (forall c, (x = CEnum A c \/ exists p, x = CFloat A p /\ c = classify A p) -> c ∉ o_notate_to A o /\ c ∉ o_notate_subject A o) as Hn.
    { intros c Hx. apply Hc. unfold add_sb_headers.
      assert (forall {X Y} (f : M mail X) (k : X -> M mail Y) m, (forall m, g_c (f m).1 = g_c m) -> (forall x m, g_c (k x m).1 = g_c m) ->
        g_c (mbind f k m).1 = g_c m) as Hb.
      { clear. intros X Y f k m H1 H2. unfold mbind. specialize (H1 m). destruct (f m) as [m1 [x|e]]; cbn [fst] in *; [|done]. by rewrite H2. }
      unfold mbind at 1.
      assert (set_classification A x m = (Mail (g_id m) (Some c) (g_t m) (g_h m), Ok c)) as ->.
      { destruct Hx as [->|(p&->&->)]; reflexivity. }
      match goal with |- g_c (mbind _ _ ?m0).1 = _ => change (Some c) with (g_c m0) end.
      apply Hb; [done|]. intros _ m1. apply Hb.
      { intros m2. destruct (o_score A o); [|done]. by destruct x. }
      intros _ m2. apply Hb.
      { intros m3. destruct (o_thermostat A o); [|done]. by destruct x. }
      intros _ m3. apply Hb; [intros m4; by destruct (o_evidence A o)|].
      intros _ m4. apply Hb; [intros m5; by destruct (o_add_id A o)|]. done. }
    clear Hc. unfold add_sb_headers. unfold mbind at 1.
    destruct (set_classification A x m) as [m0 r] eqn:Ex.
    assert (g_h m0 = g_h m /\ forall c, r = Ok c -> c ∉ o_notate_to A o /\ c ∉ o_notate_subject A o) as [<- Hr].
    { destruct x as [c|p|]; cbn [set_classification] in Ex; injection Ex as <- <-; (split; [done|]); [..|done];
        intros c' [= <-]; apply Hn; [by left|right; by exists p]. }
    destruct r as [c|e]; [|done]. destruct (Hr c eq_refl) as [Hto Hsub]. clear Ex Hr Hn. revert m0.
    match goal with |- forall m0, others (g_h (?f m0).1) = _ => change (keeps f) end.
    apply keeps_bind; [by apply keeps_hset|]. intros _. apply keeps_bind.
    { apply keeps_if; [|apply keeps_ret]. intros m1. destruct x; try done. cbn [add_score fst g_h]. by apply others_hset. }
    intros _. apply keeps_bind.
    { apply keeps_if; [|apply keeps_ret]. intros m1. destruct x; try done. cbn [add_level fst g_h]. by apply others_hset. }
    intros _. apply keeps_bind; [apply keeps_if; [by apply keeps_hset|apply keeps_ret]|].
    intros _. apply keeps_bind.
    { apply keeps_if; [|apply keeps_ret]. intros m1. by apply keeps_hset. }
    intros _ m1. cbn [fst g_h]. unfold add_notations. by rewrite !bool_decide_eq_false_2.
  Qed.
End adding.

Lemma remove_keeps h : fst (remove_sb_headers false false h) = others h.
Proof.
  rewrite remove_sb_headers_eq. unfold mbind, remove_notation.
  destruct (hget (others h) n_subject) as [|[|]|]; cbn [fst]; by destruct (hget (others h) n_to) as [|[|]|].
Qed.

Lemma others_others h : others (others h) = others h.
Proof. apply others_id, others_names_ok. Qed.

Lemma removed_others h : others h = others (remove_sb_headers false false h).1.
Proof. by rewrite remove_keeps, others_others. Qed.

(** ** Filtering a message and reading it again *)
Section again.
  Context (U : unicode) (E : mailpkg) (o : topts) (a2b : codes -> res codes) (Hc : count_all o = false).

  Lemma others_alike x h h' b : alike (Part x h b) (Part x h' b).
  Proof. exact (with_headers_alike h' (Part x h b)). Qed.

  Lemma others_learn {A : num} it order order' x h h' b is_spam (ob : obj A (gmap pyword winfo)) :
    others h = others h' ->
    parts_order_ok order -> parts_order_ok order' -> set_order_ok it -> o_bigrams ob = Some false ->
    let r := learn_gen mem_backend it (tokenize_message U E order o a2b (Part x h b)) is_spam ob in
    let r' := learn_gen mem_backend it (tokenize_message U E order' o a2b (Part x h' b)) is_spam ob in
    same_training r.1 r'.1 /\ is_ok r.2 = is_ok r'.2.
  Proof. intros Hh Ho Ho' Hit Hb. apply seen_learn; try done; [by apply seen_others|apply others_alike]. Qed.

  Lemma others_score {A : num} (HA : total_num A) it0 it order order' x h h' b hist :
    others h = others h' ->
    parts_order_ok order -> parts_order_ok order' -> set_order_ok it0 -> set_order_ok it ->
    let ob := fst (run mem_backend it0 hist (c_new false ∅ : obj A (gmap pyword winfo))) in
    same_result (score_gen mem_backend it (tokenize_message U E order o a2b (Part x h b)) ob).2
                (score_gen mem_backend it (tokenize_message U E order' o a2b (Part x h' b)) ob).2.
  Proof. intros Hh Ho Ho' H0 Hit. apply (seen_score U E o a2b HA it0 it); try done; [by apply seen_others|apply others_alike]. Qed.
End again.
