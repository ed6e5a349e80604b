(** * From observed corpora through the pickle to a classification (C115) *)
From Coq Require Import String Reals Lia.
From Verif Require Import RealModel.
From Verif Require Import Py NumModel CdbModel ClassifierModel TrainSpec TrainProofs ScoreSpec ScoreProofs StripModel RaiseModel RaiseProofs
  TokenModel TokenProofs MessageModel HeadModel HeadProofs HeadCallProofs CorpusProofs PickleModel PickleSpec PickleProofs FloatApiProofs OnceSpec OnceCases
  TreeModel TreeSpec TreeProofs SeenSpec SeenProofs SidedProofs ObserveModel ObserveSpec ObserveProofs MailboxProofs.

(** ** Histories that only learn *)
Definition lesson (x : message) : call := CLearn (SIter x.1) x.2.

Definition blank (b : bool) : message := ([], b).

Lemma lessons_matched (l : list message) : matched false (lesson <$> l) (rev l).
Proof.
  induction l as [|x l IH] using rev_ind; [constructor|].
  rewrite fmap_app, rev_app_distr. cbn [fmap list_fmap rev app]. destruct x as [ws b]. by apply matched_learn.
Qed.

Lemma elem_of_rev {B} (l : list B) x : x ∈ rev l <-> x ∈ l.
Proof. by rewrite !elem_of_list_In, <- in_rev. Qed.

Lemma containing_none b w (l : list message) : (forall x, x ∈ l -> x.2 = b -> w ∉ x.1) -> containing b w l = 0%Z.
Proof.
  induction l as [|[ws b'] l IH]; intros H; [done|]. cbn [containing]. rewrite IH by (intros x Hx; apply H; by right).
  destruct (eqb b b') eqn:Eb; [|done]. apply eqb_prop in Eb. rewrite bool_decide_eq_false_2; [done|].
  by apply (H (ws, b')); [left|].
Qed.

Lemma containing_nonneg b w (l : list message) : (0 <= containing b w l)%Z.
Proof. induction l as [|[ws b'] l IH]; [done|]. cbn [containing]. destruct (_ && _); lia. Qed.

Lemma containing_some b w (l : list message) x : x ∈ l -> x.2 = b -> w ∈ x.1 -> (1 <= containing b w l)%Z.
Proof.
  intros Hx Hb Hw. induction l as [|[ws b'] l IH]; [by apply elem_of_nil in Hx|]. cbn [containing].
  pose proof (containing_nonneg b w l). apply elem_of_cons in Hx as [->|Hx].
  - cbn [fst snd] in *. subst b'. rewrite eqb_reflx, bool_decide_eq_true_2 by done. cbn [andb]. lia.
  - specialize (IH Hx). destruct (_ && _); lia.
Qed.

Section deliver.
  Context (it : set_order) (Hit : set_order_ok it).

  Lemma it_nil : it [] = [].
  Proof.
    destruct (it []) as [|x l] eqn:Ei; [done|]. assert (x ∈ []) as Hx by (apply (proj2 (Hit _)); rewrite Ei; left).
    by apply elem_of_nil in Hx.
  Qed.

  (** Learning an empty message counts it and does nothing else. *)
  Lemma run_empty {A : num} (o : obj A (gmap pyword winfo)) n (b : bool) : o_bigrams o = Some false ->
    let o' := fst (run mem_backend it (lesson <$> replicate n (blank b)) o) in
    o_store o' = o_store o /\ o_bigrams o' = Some false /\
    o_nspam o' = (o_nspam o + if b then Z.of_nat n else 0)%Z /\ o_nham o' = (o_nham o + if b then 0 else Z.of_nat n)%Z.
  Proof.
    revert o. induction n as [|n IH]; intros o Hb.
    - cbn [replicate fmap list_fmap run fst]. destruct b; split_and!; try done; lia.
    - assert (exists o1, learn mem_backend it (SIter []) b o = (o1, Ok tt) /\ o_bigrams o1 = Some false /\ o_store o1 = o_store o /\
        o_nspam o1 = (o_nspam o + if b then 1 else 0)%Z /\ o_nham o1 = (o_nham o + if b then 0 else 1)%Z) as (o1&El&H1&H2&H3&H4).
      { unfold learn. rewrite Hb. cbn [elems]. unfold add_msg. rewrite it_nil. unfold on_store, mbind. cbn [mfor].
        eexists. split; [reflexivity|]. destruct b; cbn; split_and!; try done; lia. }
      cbn [replicate fmap list_fmap run run_call lesson blank fst snd]. rewrite El.
      specialize (IH o1 H1). cbv zeta in IH. destruct (run mem_backend it _ o1) as [o2 rs]. cbn [fst] in *.
      destruct IH as (E1&E2&E3&E4). rewrite E1, E2, E3, E4, H2, H3, H4. destruct b; split_and!; try done; lia.
  Qed.

  Context {M : machine} (p : program) (j : nat).
  Notation state := (state D (gmap pyword winfo)).

  (** The messages the classifier with number j learned, and those it only counted. *)
  Definition learned_by (xs : list ocall) : list message :=
    (fun q => ((p_tok p q.2).1, t_spam q.1)) <$> List.filter (fun q => t_class q.1 =? j) (trainings_done p xs).
  Definition all_by (xs : list ocall) : list message :=
    learned_by xs ++ replicate (Z.to_nat (failed_lessons p j true xs)) (blank true)
                  ++ replicate (Z.to_nat (failed_lessons p j false xs)) (blank false).

  Lemma lessons_learned xs : lessons p j xs = lesson <$> learned_by xs.
  Proof. unfold lessons, learned_by. by rewrite <- list_fmap_compose. Qed.

  Lemma classifier_learned xs (s : state) : s_class s j = c_new false ∅ -> (forall i, o_bigrams (s_class s i) <> None) ->
    let o := s_class (run_ocalls mem_backend it p xs s).1 j in
    let o' := fst (run mem_backend it (lesson <$> all_by xs) (c_new false ∅ : dobj)) in
    o_store o = o_store o' /\ o_nspam o = o_nspam o' /\ o_nham o = o_nham o' /\ o_bigrams o' = Some false.
  Proof.
    intros Hj Hb. pose proof (observe_classifiers it Hit p xs s j Hb) as (E1&E2&E3). cbv zeta.
    rewrite E1, E2, E3, Hj, lessons_learned. unfold all_by. rewrite !fmap_app, !run_app_fst.
    set (o1 := fst (run mem_backend it (lesson <$> learned_by xs) (c_new false ∅))).
    assert (o_bigrams o1 = Some false) as H1 by (unfold o1; by rewrite run_bigrams).
    destruct (run_empty o1 (Z.to_nat (failed_lessons p j true xs)) true H1) as (A1&A2&A3&A4).
    set (o2 := fst (run mem_backend it (lesson <$> replicate _ (blank true)) o1)) in *.
    destruct (run_empty o2 (Z.to_nat (failed_lessons p j false xs)) false A2) as (B1&B2&B3&B4).
    rewrite B1, B2, B3, B4, A1, A3, A4. unfold failed_lessons. rewrite !Nat2Z.id. split_and!; try done; lia.
  Qed.

  Lemma filter_le {B} (f : B -> bool) l : length (List.filter f l) <= length l.
  Proof. induction l as [|x l IH]; [done|]. cbn [List.filter length]. destruct (f x); cbn [length]; lia. Qed.

  Lemma omap_le {B C} (f : B -> option C) l : length (omap f l) <= length l.
  Proof. induction l as [|x l IH]; [done|]. cbn [omap list_omap length]. destruct (f x); cbn [length]; lia. Qed.

  Lemma split_le (ts : list watcher) :
    length (List.filter (fun t => (t_class t =? j) && eqb (t_spam t) true) ts) +
    length (List.filter (fun t => (t_class t =? j) && eqb (t_spam t) false) ts) <= length ts.
  Proof.
    induction ts as [|t ts IH]; [done|]. cbn [List.filter length]. destruct (t_class t =? j), (t_spam t); cbn [andb eqb length]; lia.
  Qed.

  Lemma all_by_length xs : length (all_by xs) <= length (requests p xs) + length xs.
  Proof.
    unfold all_by, learned_by. rewrite !app_length, fmap_length, !replicate_length.
    pose proof (filter_le (fun q : watcher * nat => t_class q.1 =? j) (trainings_done p xs)).
    pose proof (filter_le (fun q : watcher * nat => p_key p q.2 && bool_decide ((p_tok p q.2).2 = None)) (requests p xs)) as H2.
    fold (trainings_done p xs) in H2. unfold failed_lessons. rewrite !Nat2Z.id. pose proof (split_le (failures p xs)).
    assert (length (failures p xs) <= length xs) by apply omap_le. lia.
  Qed.

  Lemma elem_requests t r xs : (t, r) ∈ requests p xs <-> exists x, x ∈ xs /\ t ∈ asked p x /\ call_msg x = r.
  Proof.
    unfold requests. rewrite elem_of_list_In, in_flat_map. split.
    - intros (x&Hx&Hin). apply elem_of_list_In in Hx. apply elem_of_list_In in Hin. apply elem_of_list_fmap in Hin as (t'&[= -> ->]&Ht). by exists x.
    - intros (x&Hx&Ht&<-). exists x. split; [by apply elem_of_list_In|]. apply elem_of_list_In, elem_of_list_fmap. by exists t.
  Qed.

  Lemma elem_learned ws b xs : (ws, b) ∈ learned_by xs <->
    exists t x, x ∈ xs /\ t ∈ asked p x /\ t_class t = j /\ t_spam t = b /\ trainable p (call_msg x) /\ ws = (p_tok p (call_msg x)).1.
  Proof.
    unfold learned_by, trainings_done, trainable. rewrite elem_of_list_fmap. split.
    - intros ([t r]&E&Hin). cbn [fst snd] in E. injection E as -> ->.
      apply elem_of_list_In, filter_In in Hin as [Hin Hj]. apply filter_In in Hin as [Hin Ht]. cbn [fst snd] in *.
      apply elem_of_list_In in Hin. apply elem_requests in Hin as (x&Hx&Ha&<-).
      apply andb_true_iff in Ht as [Hk Hn]. apply bool_decide_eq_true in Hn. apply Nat.eqb_eq in Hj. by exists t, x.
    - intros (t&x&Hx&Ha&Hj&<-&[Hk Hn]&->). exists (t, call_msg x). split; [done|].
      apply elem_of_list_In, filter_In. split; [|by apply Nat.eqb_eq]. apply filter_In. split.
      + apply elem_of_list_In, elem_requests. by exists x.
      + cbn [snd]. rewrite Hk. by rewrite bool_decide_eq_true_2.
  Qed.

  Context (U : unicode) (E : mailpkg) (o : topts) (a2b : codes -> res codes) (order : list part -> list part) (msg : nat -> part).
  Notation toks := (tokenize_message U E order o a2b).
  Context (Hp : forall r, p_tok p r = toks (msg r)).

  Lemma deliver c xs (s : state) (b : bool) order' m' : codec_ok c ->
    s_class s j = c_new false ∅ -> (forall i, o_bigrams (s_class s i) <> None) ->
    (Z.of_nat (length (requests p xs) + length xs) < 2 ^ 48)%Z ->
    let g := tokenize_message U E order' o a2b m' in
    g.2 = None ->
    (forall w, w ∈ g.1 -> exists x t, x ∈ xs /\ t ∈ asked p x /\ t_class t = j /\ t_spam t = b /\
       trainable p (call_msg x) /\ w ∈ (toks (msg (call_msg x))).1) ->
    (forall w x t, w ∈ g.1 -> x ∈ xs -> t ∈ asked p x -> t_class t = j -> trainable p (call_msg x) ->
       w ∈ (toks (msg (call_msg x))).1 -> t_spam t = b) ->
    exists (o1 o2 : dobj) pr ev, pickle_open c None (pickle_store c (s_class (run_ocalls mem_backend it p xs s).1 j)) = (o1, Ok tt) /\
      score_gen mem_backend it g o1 = (o2, Ok (pr, ev)) /\
      (9 / 10 < (if b then pr else 1 - pr))%R /\ classify D pr = (if b then spam else ham).
  Proof.
    intros Hc Hj Hb Hlen g Hg Hin Hout.
    destruct (classifier_learned xs s Hj Hb) as (E1&E2&E3&E4). cbv zeta in *.
    set (ob := s_class (run_ocalls mem_backend it p xs s).1 j) in *.
    set (o' := fst (run mem_backend it (lesson <$> all_by xs) (c_new false ∅ : dobj))) in *.
    unfold pickle_open. rewrite (load_stored c Hc). set (o1 := Obj _ _ _ _ _).
    destruct g as [ws e] eqn:Eg. cbn [fst snd] in *. subst e. unfold g in Eg.
    destruct (call_two_words _ _ _ _ _ _ _ _ Eg) as (w1&w2&H1&H2&Hne).
    destruct (message_bytes _ _ _ _ _ _ _ Eg) as [_ Hby].
    assert (forall ws' b', (ws', b') ∈ all_by xs -> ws' = [] \/ exists t x, x ∈ xs /\ t ∈ asked p x /\ t_class t = j /\ t_spam t = b' /\
              trainable p (call_msg x) /\ ws' = (toks (msg (call_msg x))).1) as Hall.
    { intros ws' b' H. unfold all_by in H. rewrite !elem_of_app in H. destruct H as [H|[H|H]].
      - right. apply elem_learned in H as (t&x&?&?&?&?&?&->). exists t, x. split_and!; try done. by rewrite Hp.
      - left. apply elem_of_replicate in H as [[= -> _] _]. done.
      - left. apply elem_of_replicate in H as [[= -> _] _]. done. }
    destruct (such_words it Hit (lesson <$> all_by xs) (rev (all_by xs)) (lessons_matched _)) with (s := SIter ws) (b := b) (w1 := w1) (w2 := w2)
      as (o2&pr&ev&Esc&Hpr&Hcl); try done.
    - rewrite fmap_length. pose proof (all_by_length xs). lia.
    - apply Forall_forall. intros [ws' b'] H. apply (proj1 (elem_of_rev _ _)) in H. cbn [fst].
      destruct (Hall _ _ H) as [->|(t&x&_&_&_&_&[_ Ht]&->)]; [apply not_elem_of_nil|]. rewrite Hp in Ht. intros Hw.
      destruct (toks (msg (call_msg x))) as [vs e] eqn:Et. cbn [fst snd] in *. subst e.
      destruct (message_bytes _ _ _ _ _ _ _ Et) as [_ Hby']. by destruct (Hby' _ Hw).
    - intros u v Hu Hv. cbn [elems] in *. destruct (Hby u Hu) as [? ->]. by destruct (Hby v Hv) as [? ->].
    - cbn [elems]. intros w Hw. split.
      + apply containing_none. intros [ws' b'] H Hb' Hw'. apply (proj1 (elem_of_rev _ _)) in H. cbn [fst snd] in *.
        destruct (Hall _ _ H) as [->|(t&x&Hx&Ha&Ht&Hs&Htr&->)]; [by apply elem_of_nil in Hw'|].
        specialize (Hout w x t Hw Hx Ha Ht Htr Hw'). rewrite Hs in Hout. subst b'. by destruct b.
      + destruct (Hin w Hw) as (x&t&Hx&Ha&Ht&Hs&Htr&Hw').
        apply (containing_some b w _ ((toks (msg (call_msg x))).1, b)); [|done|done].
        apply (proj2 (elem_of_rev _ _)). unfold all_by. rewrite elem_of_app. left. apply elem_learned. exists t, x. rewrite Hp. done.
    - fold o' in Esc.
      assert (snd (run mem_backend it [CScore (SIter ws)] o1) = snd (run mem_backend it [CScore (SIter ws)] o')) as Es.
      { apply run_same; [done|by apply empty_cache_good|by apply (reachable_good it Hit)|].
        split_and!; unfold o1; cbn [o_nspam o_nham o_store o_bigrams c_new]; congruence. }
      cbn [run run_call] in Es. rewrite Esc in Es. destruct (spamprob_evidence mem_backend it (SIter ws) o1) as [o3 r] eqn:E5.
      cbn [snd] in Es. injection Es as ->. exists o1, o3, pr, ev. split_and!; done.
  Qed.

  (** What was put into a watched corpus is recognised. *)
  Lemma deliver_again c xs (s : state) (b : bool) order' i r id t m' : codec_ok c ->
    s_class s j = c_new false ∅ -> (forall i, o_bigrams (s_class s i) <> None) ->
    (Z.of_nat (length (requests p xs) + length xs) < 2 ^ 48)%Z ->
    parts_order_ok order -> parts_order_ok order' -> count_all o = false ->
    OAdd i r id true ∈ xs -> t ∈ p_receivers p Added i -> t_class t = j -> t_spam t = b -> trainable p r ->
    seen (mine_received o) (part_headers (msg r)) = seen (mine_received o) (part_headers m') -> alike (msg r) m' ->
    (forall w x t, w ∈ (toks (msg r)).1 -> x ∈ xs -> t ∈ asked p x -> t_class t = j -> trainable p (call_msg x) ->
       w ∈ (toks (msg (call_msg x))).1 -> t_spam t = b) ->
    exists (o1 o2 : dobj) pr ev, pickle_open c None (pickle_store c (s_class (run_ocalls mem_backend it p xs s).1 j)) = (o1, Ok tt) /\
      score_gen mem_backend it (tokenize_message U E order' o a2b m') o1 = (o2, Ok (pr, ev)) /\
      (9 / 10 < (if b then pr else 1 - pr))%R /\ classify D pr = (if b then spam else ham).
  Proof.
    intros Hc Hj Hb Hlen Ho Ho' Hca Hx Ht Htj Hts Htr Hs Ha Hout.
    destruct (seen_tokens U E o a2b order order' (msg r) m' Ho Ho' Hca Hs Ha) as [Hn Hw].
    pose proof (proj2 Htr) as Hnr. rewrite Hp in Hnr. specialize (Hw Hnr (proj1 Hn Hnr)).
    apply deliver; try done.
    - by apply Hn.
    - intros w Hin. exists (OAdd i r id true), t. cbn [call_msg asked].
      split; [done|]. split; [done|]. split; [done|]. split; [done|]. split; [done|]. by apply Hw.
    - intros w x t' Hin. apply Hout. by apply Hw.
  Qed.
End deliver.

Lemma deliver_recognised {M : machine} it (Hit : set_order_ok it) (p : program) j U E o a2b order (msg : nat -> part)
    (Hp : forall r, p_tok p r = tokenize_message U E order o a2b (msg r)) c xs (s : state D (gmap pyword winfo)) (b : bool) order' i r id t m' : codec_ok c ->
  s_class s j = c_new false ∅ -> (forall i, o_bigrams (s_class s i) <> None) ->
  (Z.of_nat (length (requests p xs) + length xs) < 2 ^ 48)%Z ->
  parts_order_ok order -> parts_order_ok order' -> count_all o = false ->
  OAdd i r id true ∈ xs -> t ∈ p_receivers p Added i -> t_class t = j -> t_spam t = b -> trainable p r ->
  seen (mine_received o) (part_headers (msg r)) = seen (mine_received o) (part_headers m') -> alike (msg r) m' ->
  (forall w x t, w ∈ (p_tok p r).1 -> x ∈ xs -> t ∈ asked p x -> t_class t = j -> trainable p (call_msg x) ->
     w ∈ (p_tok p (call_msg x)).1 -> t_spam t = b) ->
  exists (o1 o2 : dobj) pr ev, pickle_open c None (pickle_store c (s_class (run_ocalls mem_backend it p xs s).1 j)) = (o1, Ok tt) /\
    score_gen mem_backend it (tokenize_message U E order' o a2b m') o1 = (o2, Ok (pr, ev)) /\
    (9 / 10 < (if b then pr else 1 - pr))%R /\ classify D pr = (if b then spam else ham).
Proof.
  intros ? ? ? ? ? ? ? ? ? ? ? ? ? ? Hout. eapply deliver_again; try done.
  intros w x t' Hw Hx Ht Hj Hr Hw'. apply (Hout w x t'); rewrite ?Hp; done.
Qed.
