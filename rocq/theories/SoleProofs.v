(** * Lemmas about messages with a single text (C146) *)
From Coq Require Import String Lia.
From Verif Require Import Py NumModel ClassifierModel TrainSpec TrainProofs ScoreSpec StripModel RaiseModel RaiseProofs TokenModel MessageModel
  HeadModel HeadCases ShelveApiProofs TreeModel TreeSpec TreeProofs TreeCases SeenSpec SeenProofs SoleSpec TrainProps SeenProps.

Lemma own_text x h b n : (text_type x -> n = 1) -> (~ text_type x -> n = 0) ->
  length (filter (fun p => is_text p = true) [Part x h b]) = n.
Proof.
  intros H1 H0. destruct (is_text (Part x h b)) eqn:E.
  - rewrite filter_cons_True by done. rewrite filter_nil. symmetry. apply H1. by apply (is_text_spec (Part x h b)).
  - rewrite filter_cons_False by (by rewrite E). rewrite filter_nil. symmetry. apply H0.
    intros H. apply (is_text_spec (Part x h b)) in H. congruence.
Qed.

Lemma texts_count m n : texts m n -> length (filter (fun p => is_text p = true) (walk m)) = n.
Proof.
  intros H. induction H as [x h b n H1 H0|x h ps n k H1 H0 Hk IH| |p ps n k Hp IHp Hps IHps] using texts_mut with
    (P0 := fun ps k _ => length (filter (fun p => is_text p = true) (flat_map walk ps)) = k).
  - by apply own_text.
  - cbn [walk]. change (?a :: ?l) with ([a] ++ l). rewrite filter_app, app_length, IH. f_equal. by apply own_text.
  - done.
  - cbn [flat_map]. by rewrite filter_app, app_length, IHp, IHps.
Qed.

Lemma order_short order (l : list part) : parts_order_ok order -> length l <= 1 -> order l = l.
Proof.
  intros Ho Hl. specialize (Ho l). destruct l as [|p [|q l]]; [by apply Permutation_nil_r|by apply Permutation_singleton_r|cbn in Hl; lia].
Qed.

Section sole.
  Context (U : unicode) (E : mailpkg) (o : topts) (a2b : codes -> res codes).
  Notation toks order := (tokenize_message U E order o a2b).

  Lemma sole_tokens order order' m n : parts_order_ok order -> parts_order_ok order' -> texts m n -> n <= 1 ->
    toks order m = toks order' m.
  Proof.
    intros Ho Ho' Hn Hl. unfold tokenize_message, textparts. apply texts_count in Hn.
    rewrite (order_short order), (order_short order'); [done|done|lia|done|lia].
  Qed.

  Lemma texts_headers x h h' b n : texts (Part x h b) n -> texts (Part x h' b) n.
  Proof. intros H. inversion H; subst; by constructor. Qed.

  Lemma sole_headers order order' x h h' b n : count_all o = false -> parts_order_ok order -> parts_order_ok order' ->
    texts (Part x h b) n -> n <= 1 -> seen (mine_received o) h = seen (mine_received o) h' ->
    toks order (Part x h b) = toks order' (Part x h' b).
  Proof.
    intros Hc Ho Ho' Hn Hl Hs. rewrite (sole_tokens order (fun l => l) _ n Ho same_order Hn Hl).
    rewrite (sole_tokens order' (fun l => l) (Part x h' b) n Ho' same_order (texts_headers _ _ _ _ _ Hn) Hl).
    unfold tokenize_message, textparts. cbn [part_headers].
    assert (part_info <$> walk (Part x h b) = part_info <$> walk (Part x h' b)) as -> by (by destruct b).
    assert (part_payload <$> filter (fun p => is_text p = true) (walk (Part x h b)) =
            part_payload <$> filter (fun p => is_text p = true) (walk (Part x h' b))) as ->.
    { assert (is_text (Part x h b) = is_text (Part x h' b)) as He by done.
      destruct (is_text (Part x h' b)) eqn:E1; destruct b as [q|ps]; cbn [walk];
        rewrite ?filter_cons_True by done; rewrite ?filter_cons_False by (by rewrite ?He, ?E1); done. }
    by apply C111_tokens.
  Qed.

  Lemma sole_learn {A : num} {St} (bk : backend St) it order order' x h h' b n is_spam (ob : obj A St) : count_all o = false -> parts_order_ok order -> parts_order_ok order' ->
    texts (Part x h b) n -> n <= 1 -> seen (mine_received o) h = seen (mine_received o) h' ->
    learn_gen bk it (toks order (Part x h b)) is_spam ob = learn_gen bk it (toks order' (Part x h' b)) is_spam ob /\
    unlearn_gen bk it (toks order (Part x h b)) is_spam ob = unlearn_gen bk it (toks order' (Part x h' b)) is_spam ob /\
    score_gen bk it (toks order (Part x h b)) ob = score_gen bk it (toks order' (Part x h' b)) ob.
  Proof. intros Hc Ho Ho' Hn Hl Hs. by rewrite (sole_headers order order' x h h' b n Hc Ho Ho' Hn Hl Hs). Qed.

  Lemma same_unlearn {A : num} it g bigrams hist b : set_order_ok it ->
    let ob := fst (run mem_backend it hist (c_new bigrams ∅ : obj A (gmap pyword winfo))) in
    exists ob1 ob2 r, learn_gen mem_backend it g b ob = (ob1, r) /\
      unlearn_gen mem_backend it g b ob1 = (ob2, r) /\ same_training ob2 ob.
  Proof.
    intros Hit ob. destruct g as [ws [e|]].
    - assert (o_bigrams ob = Some bigrams) as Hb by (unfold ob; by rewrite run_bigrams).
      destruct (C04_counts_nonnegative_no_empty_record A it bigrams hist Hit) as (Hs&Hh&_). fold ob in Hs, Hh.
      destruct (learn_gen_raises mem_backend it ws e b ob) as (o1&H1&N1&N2&S1&B1&_); [by rewrite Hb|].
      destruct (unlearn_gen_raises mem_backend it ws e b o1) as (o2&e2&H2&S2&B2&_&_&N); [by rewrite B1, Hb|].
      destruct N as (->&N3&N4); [destruct b; lia|].
      exists o1, o2, (Err e). split; [done|]. split; [done|].
      split; [rewrite N3, N1; destruct b; lia|]. split; [rewrite N4, N2; destruct b; lia|]. split; congruence.
    - destruct (C02_unlearn_undoes_learn A it bigrams hist (SIter ws) b Hit) as (o1&o2&H1&H2&H3).
      exists o1, o2, (Ok tt). by rewrite learn_gen_ok, unlearn_gen_ok.
  Qed.

  Lemma sole_unlearn {A : num} it order order' bigrams hist x h h' b n is_spam : count_all o = false -> set_order_ok it ->
    parts_order_ok order -> parts_order_ok order' ->
    texts (Part x h b) n -> n <= 1 -> seen (mine_received o) h = seen (mine_received o) h' ->
    let ob := fst (run mem_backend it hist (c_new bigrams ∅ : obj A (gmap pyword winfo))) in
    exists ob1 ob2 r, learn_gen mem_backend it (toks order (Part x h b)) is_spam ob = (ob1, r) /\
      unlearn_gen mem_backend it (toks order' (Part x h' b)) is_spam ob1 = (ob2, r) /\ same_training ob2 ob.
  Proof.
    intros Hc Hit Ho Ho' Hn Hl Hs. rewrite <- (sole_headers order order' x h h' b n Hc Ho Ho' Hn Hl Hs). by apply same_unlearn.
  Qed.
End sole.

(** ** A message with two texts *)
Lemma two_texts_left (A : num) it : set_order_ok it ->
  let toks order := tokenize_message ascii plain order default_opts no_a2b two_parts in
  exists ob1 ob2 : obj A (gmap pyword winfo),
    learn_gen mem_backend it (toks (fun l => l)) true (c_new true ∅) = (ob1, Ok tt) /\
    unlearn_gen mem_backend it (toks (@rev part)) true ob1 = (ob2, Ok tt) /\
    o_nspam ob2 = 0%Z /\ o_nham ob2 = 0%Z /\ o_store ob2 !! WStr (str "bi:b'alpha' b'beta'") = Some (WI 1 0).
Proof.
  intros Hit toks. unfold toks.
  rewrite (two_parts_tokens (fun l => l)) by (by vm_compute). rewrite (two_parts_tokens (@rev part)) by (by vm_compute).
  rewrite learn_gen_ok.
  destruct (learn_mem (A:=A) it Hit (SIter (tokenize_message ascii plain (fun l => l) default_opts no_a2b two_parts).1) true true (c_new true ∅) eq_refl) as (m1&->&Hm1).
  match goal with |- exists ob1 ob2, (?o, _) = _ /\ unlearn_gen _ _ (?ws, None) _ _ = _ /\ _ =>
    destruct (unlearn_mem_pos (A:=A) it Hit (SIter ws) true true o eq_refl) as (m2&Hu&Hm2); [done|]; exists o end.
  eexists. split; [reflexivity|]. rewrite unlearn_gen_ok. split; [exact Hu|]. split; [done|]. split; [done|].
  cbn [o_store]. rewrite Hm2. cbn [o_store]. rewrite Hm1. cbn [c_new o_store].
  rewrite bool_decide_eq_false_2; [|apply (bool_decide_unpack _); by vm_compute].
  rewrite bool_decide_eq_true_2; [|apply (bool_decide_unpack _); by vm_compute].
  by rewrite lookup_empty.
Qed.

Lemma two_texts_refuted (A : num) it : set_order_ok it ->
  ~ forall U E o a2b order order' m b (ob1 ob2 : obj A (gmap pyword winfo)) r1 r2, parts_order_ok order -> parts_order_ok order' -> texts m 2 ->
    learn_gen mem_backend it (tokenize_message U E order o a2b m) b (c_new true ∅) = (ob1, r1) ->
    unlearn_gen mem_backend it (tokenize_message U E order' o a2b m) b ob1 = (ob2, r2) ->
    o_store ob2 = ∅.
Proof.
  intros Hit H. destruct (two_texts_left A it Hit) as (ob1&ob2&H1&H2&_&_&H3).
  assert (texts two_parts 2) as Ht.
  { assert (forall t, ~ (exists s, str t = str "text" ++ s) -> ~ text_type (info t)) as Hn by (intros t K K'; by apply K, text_is_text).
    assert (forall t s, take 4 (str t) <> str "text" -> str t <> str "text" ++ s) as Hp.
    { intros t s K K'. apply K. by rewrite K'. }
    assert (forall t, texts (text_part t) 1) as T1. { intros t. constructor; [done|]. intros K. exfalso. apply K. right. by exists (str "plain"). }
    apply (texts_multi _ _ _ 0 2).
    - intros [s K]%text_is_text. exfalso. revert K. apply Hp. by vm_compute.
    - done.
    - apply (texts_cons _ _ 1 1); [apply T1|]. apply (texts_cons _ _ 1 0); [apply T1|]. apply (texts_cons _ _ 0 0); [|constructor].
      constructor; [|done]. intros [s K]%text_is_text. exfalso. revert K. apply Hp. by vm_compute. }
  rewrite (H _ _ _ _ _ _ _ _ _ _ _ _ same_order reverse_order Ht H1 H2) in H3. by rewrite lookup_empty in H3.
Qed.

Lemma sole_case : let m h := Part (info "multipart/mixed") h (Multi [text_part "alpha beta"; attachment "%PDF"]) in
  texts (m []) 1 /\ seen false [] = seen false [(str "X-Spambayes-Classification", HText (str "spam"))] /\ count_all default_opts = false.
Proof.
  cbv zeta. split; [|split; [by vm_compute|done]].
  assert (forall t s, take 4 (str t) <> str "text" -> str t <> str "text" ++ s) as Hp.
  { intros t s K K'. apply K. by rewrite K'. }
  apply (texts_multi _ _ _ 0 1).
  - intros [s K]%text_is_text. exfalso. revert K. apply Hp. by vm_compute.
  - done.
  - apply (texts_cons _ _ 1 0).
    + constructor; [done|]. intros K. exfalso. apply K. right. by exists (str "plain").
    + apply (texts_cons _ _ 0 0); [|constructor].
      constructor; [|done]. intros [s K]%text_is_text. exfalso. revert K. apply Hp. by vm_compute.
Qed.

(** ** Filtered messages *)
Lemma sole_filtered (U : unicode) (E : mailpkg) (o : topts) (a2b : codes -> res codes) (A : num) it order order' bigrams hist x b n is_spam
    hstr (A' : num) fs lv fc arg clues so m :
  count_all o = false -> set_order_ok it -> parts_order_ok order -> parts_order_ok order' -> texts (Part x (g_h m) b) n -> n <= 1 ->
  let m' := (add_sb_headers hstr A' fs lv fc arg clues so m).1 in
  (forall c, g_c m' = Some c -> c ∉ o_notate_to A' so /\ c ∉ o_notate_subject A' so) ->
  let ob := fst (run mem_backend it hist (c_new bigrams ∅ : obj A (gmap pyword winfo))) in
  exists ob1 ob2 r, learn_gen mem_backend it (tokenize_message U E order o a2b (Part x (g_h m) b)) is_spam ob = (ob1, r) /\
    unlearn_gen mem_backend it (tokenize_message U E order' o a2b (Part x (g_h m') b)) is_spam ob1 = (ob2, r) /\ same_training ob2 ob.
Proof.
  intros Hc Hit Ho Ho' Hn Hl m' Hm. apply (sole_unlearn U E o a2b it order order' bigrams hist x _ _ b n is_spam Hc Hit Ho Ho' Hn Hl).
  apply seen_others. symmetry. exact (add_keeps hstr A' fs lv fc arg clues so m Hm).
Qed.

(** ** Without bigrams, for any number of texts *)
Lemma words_unlearn {A : num} it hist g g' b : set_order_ok it -> same_words g g' ->
  let ob := fst (run mem_backend it hist (c_new false ∅ : obj A (gmap pyword winfo))) in
  exists ob1 ob2 r r', learn_gen mem_backend it g b ob = (ob1, r) /\
    unlearn_gen mem_backend it g' b ob1 = (ob2, r') /\ is_ok r = is_ok r' /\ same_training ob2 ob.
Proof.
  intros Hit [Hn Hw] ob. assert (o_bigrams ob = Some false) as Hb by (unfold ob; by rewrite run_bigrams).
  destruct (C04_counts_nonnegative_no_empty_record A it false hist Hit) as (Hs&Hh&_). fold ob in Hs, Hh.
  destruct g as [ws [e|]], g' as [ws' [e'|]]; cbn [fst snd] in Hn, Hw.
  - destruct (learn_gen_raises mem_backend it ws e b ob) as (o1&H1&N1&N2&S1&B1&_); [by rewrite Hb|].
    destruct (unlearn_gen_raises mem_backend it ws' e' b o1) as (o2&e2&H2&S2&B2&_&_&N); [by rewrite B1, Hb|].
    destruct N as (->&N3&N4); [destruct b; lia|].
    exists o1, o2, (Err e), (Err e'). split; [done|]. split; [done|]. split; [done|].
    split; [rewrite N3, N1; destruct b; lia|]. split; [rewrite N4, N2; destruct b; lia|]. split; congruence.
  - exfalso. by specialize (proj2 Hn eq_refl).
  - exfalso. by specialize (proj1 Hn eq_refl).
  - specialize (Hw eq_refl eq_refl). rewrite learn_gen_ok.
    destruct (C02_unlearn_undoes_learn A it false hist (SIter ws) b Hit) as (o1&o2&H1&H2&T1&T2&T3&T4). fold ob in H1, T1, T2, T3, T4.
    destruct (learn_mem it Hit (SIter ws) b false ob Hb) as (m1&E1&_). rewrite H1 in E1. injection E1 as ->.
    match type of H2 with unlearn _ _ _ _ ?o = _ => set (p := o) in * end.
    assert (0 < (if b then o_nspam p else o_nham p))%Z as Hp by (unfold p; cbn; destruct b; lia).
    destruct (unlearn_mem_pos it Hit (SIter ws) b false p eq_refl Hp) as (m2&E2&M2).
    destruct (unlearn_mem_pos it Hit (SIter ws') b false p eq_refl Hp) as (m3&E3&M3).
    assert (m3 = m2) as ->.
    { apply map_eq. intros w. rewrite M2, M3. by rewrite (bool_decide_ext _ _ (Hw w)). }
    exists p, o2, (Ok tt), (Ok tt). rewrite unlearn_gen_ok, E3, <- E2, H2. done.
Qed.

Lemma alike_unlearn (U : unicode) (E : mailpkg) (o : topts) (a2b : codes -> res codes) (A : num) it order order' hist m m' b :
  count_all o = false -> set_order_ok it -> parts_order_ok order -> parts_order_ok order' ->
  seen (mine_received o) (part_headers m) = seen (mine_received o) (part_headers m') -> alike m m' ->
  let ob := fst (run mem_backend it hist (c_new false ∅ : obj A (gmap pyword winfo))) in
  exists ob1 ob2 r r', learn_gen mem_backend it (tokenize_message U E order o a2b m) b ob = (ob1, r) /\
    unlearn_gen mem_backend it (tokenize_message U E order' o a2b m') b ob1 = (ob2, r') /\ is_ok r = is_ok r' /\ same_training ob2 ob.
Proof. intros Hc Hit Ho Ho' Hs Ha. apply words_unlearn; [done|]. by apply seen_tokens. Qed.
