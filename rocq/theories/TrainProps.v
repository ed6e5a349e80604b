(** * Property theorems C01 - C07 (training and the probability cache) *)
From Coq Require Import String.
From Verif Require Import Py NumModel ClassifierModel TrainSpec TrainProofs ScoreProofs.

Notation mem_obj A := (obj A (gmap pyword winfo)).

(** A set enumeration that satisfies [set_order_ok]. *)
Example set_order_exists : set_order_ok remove_dups.
Proof. split; [apply NoDup_remove_dups|]. intros w. apply elem_of_remove_dups. Qed.

(** ** C01 *)
Theorem C01_counts_equal_learned_messages :
  forall (A : num) (it : set_order) (bigrams : bool) (h : list call) (ms : list message),
  set_order_ok it -> matched bigrams h ms ->
  let '(o, rs) := run mem_backend it h (c_new bigrams ∅ : mem_obj A) in
  (o_bigrams o = Some bigrams /\
   o_nspam o = total true ms /\ o_nham o = total false ms /\
   forall w, o_store o !! w = expected_record ms w) /\
  Forall training_ok rs.
Proof. intros A it bg h ms Hit. exact (matched_refines it Hit bg h ms). Qed.
Print Assumptions C01_counts_equal_learned_messages.

(** A matched history: two learned messages, a score, one unlearned again. *)
Example C01_case : matched false
  [CLearn (SList [WStr (str "a"); WStr (str "b"); WStr (str "a")]) true;
   CLearn (SIter [WStr (str "b")]) false;
   CScore (SList [WStr (str "b")]);
   CUnlearn (SList [WStr (str "b"); WStr (str "a")]) true]
  [([WStr (str "b")], false)].
Proof.
  apply (matched_unlearn false [_;_;_] [([WStr (str "b")], false)]
           [WStr (str "a"); WStr (str "b")] true [] _).
  - apply (matched_score false [_;_]). simpl.
    apply (matched_learn false [_]); [|by intros w; cbn].
    apply (matched_learn false []); [constructor|].
    intros w. cbn. rewrite !elem_of_cons. tauto.
  - intros w. cbn. rewrite !elem_of_cons. tauto.
Qed.

(** ** C02 *)
Theorem C02_unlearn_undoes_learn :
  forall (A : num) (it : set_order) (bigrams : bool) (h : list call) (s : stream) (b : bool),
  set_order_ok it ->
  let o := fst (run mem_backend it h (c_new bigrams ∅ : mem_obj A)) in
  exists o1 o2, learn mem_backend it s b o = (o1, Ok tt) /\
    unlearn mem_backend it s b o1 = (o2, Ok tt) /\ same_training o2 o.
Proof. intros A it bg h s b Hit. exact (reachable_learn_unlearn it Hit bg h s b). Qed.
Print Assumptions C02_unlearn_undoes_learn.

(** ** C03 *)
Theorem C03_training_order_irrelevant :
  forall (A : num) (it1 it2 : set_order) (bigrams : bool) (h1 h2 : list (stream * bool))
         (o : mem_obj A),
  set_order_ok it1 -> set_order_ok it2 -> o_bigrams o = Some bigrams ->
  same_messages bigrams h1 h2 ->
  same_training (fst (run mem_backend it1 ((fun p => CLearn p.1 p.2) <$> h1) o))
                (fst (run mem_backend it2 ((fun p => CLearn p.1 p.2) <$> h2) o)).
Proof. exact @train_order. Qed.
Print Assumptions C03_training_order_irrelevant.

Example C03_case : same_messages false
  [(SList [WStr (str "a"); WStr (str "b")], true); (SList [WStr (str "c")], false)]
  [(SIter [WStr (str "c"); WStr (str "c")], false);
   (SList [WStr (str "b"); WStr (str "a"); WStr (str "b")], true)].
Proof.
  eexists. split; [apply Permutation_swap|].
  constructor; [|constructor; [|constructor]];
    (split; [done|]); intros w; cbn; rewrite !elem_of_cons, elem_of_nil; tauto.
Qed.

(** ** C04 *)
Theorem C04_counts_nonnegative_no_empty_record :
  forall (A : num) (it : set_order) (bigrams : bool) (h : list call),
  set_order_ok it -> counts_ok (fst (run mem_backend it h (c_new bigrams ∅ : mem_obj A))).
Proof. intros A it bg h Hit. exact (reachable_wf it Hit bg h). Qed.
Print Assumptions C04_counts_nonnegative_no_empty_record.

(** ** C05 *)
Theorem C05_refused_unlearn_changes_nothing :
  forall (A : num) (it : set_order) (bigrams : bool) (o : mem_obj A) (s : stream) (b : bool),
  set_order_ok it -> o_bigrams o = Some bigrams ->
  (forall o' e, unlearn mem_backend it s b o = (o', Err e) ->
     e = ValueError /\ (total_of b o <= 0)%Z /\ same_training o' o) /\
  ((total_of b o <= 0)%Z -> exists o', unlearn mem_backend it s b o = (o', Err ValueError)).
Proof. intros A it bg o s b Hit. exact (unlearn_refused it Hit s b bg o). Qed.
Print Assumptions C05_refused_unlearn_changes_nothing.

(** ** C06 *)
Theorem C06_learn_changes_only_the_message :
  forall (A : num) (it : set_order) (bigrams : bool) (h : list call) (s : stream) (b : bool),
  set_order_ok it ->
  let o := fst (run mem_backend it h (c_new bigrams ∅ : mem_obj A)) in
  exists o', learn mem_backend it s b o = (o', Ok tt) /\
    total_of b o' = (total_of b o + 1)%Z /\ total_of (negb b) o' = total_of (negb b) o /\
    (forall w, ~ tokens_of bigrams s w -> o_store o' !! w = o_store o !! w) /\
    (forall w, tokens_of bigrams s w ->
       count b (o_store o' !! w) = (count b (o_store o !! w) + 1)%Z /\
       count (negb b) (o_store o' !! w) = count (negb b) (o_store o !! w)).
Proof. intros A it bg h s b Hit. exact (learn_frame it Hit bg h s b). Qed.
Print Assumptions C06_learn_changes_only_the_message.

Theorem C06_unlearn_changes_only_the_message :
  forall (A : num) (it : set_order) (bigrams : bool) (h : list call) (s : stream) (b : bool) o',
  set_order_ok it ->
  let o := fst (run mem_backend it h (c_new bigrams ∅ : mem_obj A)) in
  unlearn mem_backend it s b o = (o', Ok tt) ->
    total_of b o' = (total_of b o - 1)%Z /\ total_of (negb b) o' = total_of (negb b) o /\
    (forall w, ~ tokens_of bigrams s w -> o_store o' !! w = o_store o !! w) /\
    (forall w, tokens_of bigrams s w ->
       count b (o_store o' !! w) = Z.max 0 (count b (o_store o !! w) - 1) /\
       count (negb b) (o_store o' !! w) = count (negb b) (o_store o !! w)).
Proof. intros A it bg h s b o' Hit. exact (unlearn_frame it Hit bg h s b o'). Qed.
Print Assumptions C06_unlearn_changes_only_the_message.

(** Unlearning a message that was never learned is accepted. *)
Example C06_case (A : num) : exists o',
  unlearn mem_backend remove_dups (SList [WStr (str "b")]) true
    (fst (run mem_backend remove_dups [CLearn (SList [WStr (str "a")]) true]
              (c_new false ∅ : mem_obj A))) = (o', Ok tt).
Proof. eexists. reflexivity. Qed.

(** ** C07 *)
Theorem C07_probability_cache_transparent :
  forall (A : num) (it : set_order) (bigrams : bool) (h : list (call * bool)),
  set_order_ok it ->
  Forall (fun p => p.2 = true -> exists s, p.1 = CScore s) h ->
  let '(o1, r1) := run mem_backend it (fst <$> h) (c_new bigrams ∅ : mem_obj A) in
  let '(o2, r2) := run mem_backend it (unmarked h) (c_new bigrams ∅ : mem_obj A) in
  unmarked (zip r1 (snd <$> h)) = r2 /\ same_training o1 o2.
Proof.
  intros A it bg h Hit Hm.
  exact (erase_scores it Hit h _ _ Hm (reachable_good it Hit bg []) (reachable_good it Hit bg [])
           (same_training_refl _)).
Qed.
Print Assumptions C07_probability_cache_transparent.

(** A history with one extra score call between two learns. *)
Example C07_case :
  let h := [(CLearn (SList [WStr (str "a")]) true, false);
            (CScore (SList [WStr (str "a")]), true);
            (CLearn (SList [WStr (str "a")]) false, false);
            (CScore (SList [WStr (str "a")]), false)] in
  Forall (fun p => p.2 = true -> exists s, p.1 = CScore s) h /\ length (unmarked h) = 3.
Proof. split; [|reflexivity]. repeat constructor; simpl; try discriminate. by eexists. Qed.
