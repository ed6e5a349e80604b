(** * Property C135 (which messages cannot be scored) and C22 in double precision *)
From Coq Require Import Reals String.
From Verif Require Import Py NumModel ClassifierModel TrainSpec ScoreSpec RealModel FloatProofs ExcessSpec ExcessProofs BytesProofs TrainProps.

(** ** C135 *)
Theorem C135_exactly_the_overdrawn_words_raise :
  forall (M : machine) (it : set_order) (bigrams : bool) (h : list call) (s : stream),
  set_order_ok it -> (Z.of_nat (length h) < 2 ^ 48)%Z -> one_type bigrams (elems s) ->
  (bigrams = true -> forall s' b, CLearn s' b ∈ h -> ~ tokens_of bigrams s' WNone) ->
  let o := fst (run mem_backend it h (c_new bigrams ∅ : mem_obj (mnum M))) in
  (exists o' p ev, spamprob_evidence mem_backend it s o = (o', Ok (p, ev)) /\
     forall b w, candidate bigrams (elems s) w -> ~ overdrawn o b w) \/
  (exists o' (b : bool) w, spamprob_evidence mem_backend it s o = (o', Err (if b then Exception2 else Exception1)) /\
     candidate bigrams (elems s) w /\ overdrawn o b w).
Proof. intros M it bg h s Hit. exact (score_outcome it Hit bg h s). Qed.
Print Assumptions C135_exactly_the_overdrawn_words_raise.

Theorem C135_excess_is_at_most_the_unlearned_messages :
  forall (A : num) (it : set_order) (bigrams : bool) (h : list call) (b : bool) (w : pyword),
  set_order_ok it ->
  let o := fst (run mem_backend it h (c_new bigrams ∅ : mem_obj A)) in
  (count b (o_store o !! w) <= total_of b o + unlearns b h)%Z.
Proof. intros A it bg h b w Hit. exact (excess_bounded it Hit bg h b w). Qed.
Print Assumptions C135_excess_is_at_most_the_unlearned_messages.

Theorem C135_learning_other_messages_repairs :
  forall (M : machine) (it : set_order) (bigrams : bool) (h ls : list call) (s : stream),
  set_order_ok it -> (Z.of_nat (length (h ++ ls)) < 2 ^ 48)%Z -> one_type bigrams (elems s) ->
  (bigrams = true -> forall s' b, CLearn s' b ∈ h ++ ls -> ~ tokens_of bigrams s' WNone) ->
  (forall b, unlearns b ls = 0%Z /\ (unlearns b h <= learns b ls)%Z) ->
  learned_apart bigrams ls (candidate bigrams (elems s)) ->
  exists o' p ev, spamprob_evidence mem_backend it s
    (fst (run mem_backend it (h ++ ls) (c_new bigrams ∅ : mem_obj (mnum M)))) = (o', Ok (p, ev)).
Proof. intros M it bg h ls s Hit. exact (repaired it Hit bg h ls s). Qed.
Print Assumptions C135_learning_other_messages_repairs.

(** Two learned messages, one unlearned that was never learned: the word has two
    spam messages out of one. One further message repairs it. *)
Example C135_case (A : num) :
  let h := [CLearn (SList [WStr (str "a")]) true; CLearn (SList [WStr (str "a")]) true; CUnlearn (SList [WStr (str "b")]) true] in
  let ls := [CLearn (SList [WStr (str "c")]) true] in
  overdrawn (fst (run mem_backend remove_dups h (c_new false ∅ : mem_obj A))) true (WStr (str "a")) /\
  candidate false [WStr (str "a")] (WStr (str "a")) /\ one_type false [WStr (str "a")] /\
  (forall b, unlearns b ls = 0%Z /\ (unlearns b h <= learns b ls)%Z) /\
  learned_apart false ls (candidate false [WStr (str "a")]).
Proof.
  split_and!.
  - by vm_compute.
  - by left.
  - intros w1 w2 ->%elem_of_list_singleton ->%elem_of_list_singleton. done.
  - by intros [|].
  - intros s b w Hs Ht Hw. apply elem_of_list_singleton in Hs. injection Hs as -> ->. simpl in Ht, Hw.
    apply elem_of_list_singleton in Ht, Hw. by subst.
Qed.

(** ** C22 *)
Theorem C22_lists_of_bytes_with_bigrams_raise :
  forall (M : machine) (it : set_order) (l : list pyword) (s : stream) (b : bool),
  set_order_ok it -> Forall (fun w => exists t, w = WBytes t) l -> 2 <= length l -> elems s = l ->
  snd (spamprob_evidence mem_backend it s
         (fst (run mem_backend it [CLearn (SList l) b] (c_new true ∅ : mem_obj (mnum M))))) = Err TypeError.
Proof. intros M it l s b Hit. exact (bytes_list it Hit l s b). Qed.
Print Assumptions C22_lists_of_bytes_with_bigrams_raise.

Theorem C22_generators_of_bytes_with_bigrams_raise :
  forall (M : machine) (it : set_order) (l : list pyword) (s : stream) (b : bool),
  set_order_ok it -> Forall (fun w => exists t, w = WBytes t) l -> 7 <= length l -> elems s = l ->
  snd (spamprob_evidence mem_backend it s
         (fst (run mem_backend it [CLearn (SIter l) b] (c_new true ∅ : mem_obj (mnum M))))) = Err TypeError.
Proof. intros M it l s b Hit. exact (bytes_iter it Hit l s b). Qed.
Print Assumptions C22_generators_of_bytes_with_bigrams_raise.

Example C22_bytes_case : let l := WBytes <$> [str "a"; str "b"; str "c"; str "d"; str "e"; str "f"; str "g"] in
  Forall (fun w => exists t, w = WBytes t) l /\ 7 <= length l.
Proof. split; [|simpl; lia]. apply Forall_fmap, Forall_forall. intros t _. by exists t. Qed.
