(** * Property theorems C23 - C27 (the classifier stored in a shelve database) *)
From Coq Require Import String Reals.
From Verif Require Import Py NumModel ClassifierModel TrainSpec RealModel RealSpec ShelveModel ShelveSpec
  ShelveRunProofs ShelveApiProofs.

Notation shelve_obj A := (obj A sstore).

(** ** C23 *)
Theorem C23_database_classifier_refines_memory_classifier :
  forall (A : num) (it : set_order) (xs : list sop),
  set_order_ok it -> Forall plain_op xs -> tidy false xs ->
  let '(o, rs) := run_sops it xs (fst (shelve_open (A:=A) ∅)) in
  let '(m, qs) := run mem_backend it (calls_of xs) (c_new false ∅ : obj A (gmap pyword winfo)) in
  outcomes_match xs rs qs /\ o_nspam o = o_nspam m /\ o_nham o = o_nham m /\
  forall w, plain w -> recorded o w = Ok (o_store m !! w).
Proof. intros A it xs Hit. exact (shelve_refines_memory it Hit xs). Qed.
Print Assumptions C23_database_classifier_refines_memory_classifier.

(** A history with learning, unlearning, scoring, two stores and re-opening. *)
Example C23_case :
  let xs := [SCall (CLearn (SList [WStr (str "a"); WStr (str "b")]) true);
             SCall (CLearn (SList [WStr (str "a")]) true); SSave; SReopen;
             SCall (CScore (SList [WStr (str "a")]));
             SCall (CUnlearn (SList [WStr (str "a")]) true); SSave; SLoad] in
  Forall plain_op xs /\ tidy false xs.
Proof.
  split; [|repeat split].
  assert (plain (WStr (str "a")) /\ plain (WStr (str "b"))) as [Ha Hb].
  { split; eexists; (split; [reflexivity|]); (split; [|done]);
      repeat constructor; intros [H _]; by apply H. }
  repeat constructor; intros w; simpl; rewrite ?elem_of_cons, elem_of_nil;
    intros Hw; destruct_or?; subst; done.
Qed.

(** ** C24 *)
Theorem C24_store_and_reopen_lose_nothing :
  forall (A : num) (it : set_order) (d : database) (xs : list sop),
  set_order_ok it -> left_behind A plain_op d -> Forall plain_op xs ->
  let o := fst (run_sops it xs (fst (shelve_open (A:=A) d))) in
  exists (o1 o2 : shelve_obj A), shelve_store it o = (o1, Ok tt) /\
    shelve_open (s_db (o_store o1)) = (o2, Ok tt) /\
    o_nspam o2 = o_nspam o /\ o_nham o2 = o_nham o /\
    o_nspam o1 = o_nspam o /\ o_nham o1 = o_nham o /\
    (forall w, plain w -> recorded o2 w = recorded o w /\ recorded o1 w = recorded o w) /\
    exists o3, shelve_store it o1 = (o3, Ok tt) /\
      o3 = with_store o1 (SStore (s_db (o_store o1)) (s_mem (o_store o1)) (s_changed (o_store o1))
                            (s_deleted (o_store o1)) (s_log (o_store o3))).
Proof. intros A it d xs Hit. exact (store_loses_nothing it Hit plain_op d xs (fun x H => H)). Qed.
Print Assumptions C24_store_and_reopen_lose_nothing.

(** A database left behind by a crash inside the first learn call. *)
Example C24_case (A : num) : exists d, left_behind A plain_op d /\
  d !! str "a" = Some (DWord (WI 1 0)) /\ d !! STATE_KEY = None.
Proof.
  eexists. split; [apply (left_crash A plain_op ∅ remove_dups [learn_a] 1)|].
  - apply left_empty.
  - apply dups_ok.
  - apply plain_ops_a. intros x. rewrite elem_of_list_singleton. tauto.
  - by vm_compute.
Qed.

(** ** C25 *)
Theorem C25_listing_after_store_is_exact :
  forall (A : num) (it : set_order) (d : database) (xs : list sop),
  set_order_ok it -> left_behind A plain_op d -> Forall plain_op xs ->
  let o := fst (run_sops it xs (fst (shelve_open (A:=A) d))) in
  exists (o1 : shelve_obj A) ks, shelve_store it o = (o1, Ok tt) /\ shelve_keys o1 = Ok ks /\
    forall k, k ∈ ks <-> exists r, recorded o (WStr k) = Ok (Some r).
Proof.
  intros A it d xs Hit.
  exact (ShelveCrashProofs.listing_after_store it Hit plain_op d xs (fun x H => H)).
Qed.
Print Assumptions C25_listing_after_store_is_exact.

Theorem C25_listing_before_store_is_exact_refuted :
  forall (A : num), exists it xs ks k, set_order_ok it /\ Forall plain_op xs /\
  let o := fst (run_sops it xs (fst (shelve_open (A:=A) ∅))) in
  shelve_keys o = Ok ks /\ k ∈ ks /\ recorded o (WStr k) = Ok None.
Proof. exact listing_before_store. Qed.
Print Assumptions C25_listing_before_store_is_exact_refuted.

Theorem C25_listing_an_untrained_database_raises :
  forall (A : num), shelve_keys (fst (shelve_open (A:=A) ∅)) = Err ValueError.
Proof. exact listing_untrained. Qed.
Print Assumptions C25_listing_an_untrained_database_raises.

(** ** C26 *)
Theorem C26_counts_consistent_at_every_crash_point :
  forall (A : num) (it : set_order) (xs : list sop) (n : nat),
  set_order_ok it -> Forall plain_op xs -> Forall (fun x => ~ is_unlearn x) xs ->
  let log := s_log (o_store (fst (run_sops it xs (fst (shelve_open (A:=A) ∅))))) in
  exists o : shelve_obj A, shelve_open (replay ∅ (take n log)) = (o, Ok tt) /\
  forall w r, plain w -> recorded o w = Ok (Some r) ->
    consistent (spamcount r) (o_nspam o) (hamcount r) (o_nham o).
Proof. exact crash_point_counts. Qed.
Print Assumptions C26_counts_consistent_at_every_crash_point.

Theorem C26_scoring_works_at_every_crash_point :
  forall (it it' : set_order) (xs : list sop) (n : nat) (s : stream),
  set_order_ok it -> set_order_ok it' -> Forall plain_op xs ->
  Forall (fun x => ~ is_unlearn x) xs -> Forall plain (elems s) ->
  let log := s_log (o_store (fst (run_sops it xs (fst (shelve_open (A:=exact) ∅))))) in
  exists (o o' : shelve_obj exact) p ev, shelve_open (replay ∅ (take n log)) = (o, Ok tt) /\
    spamprob_evidence shelve_backend it' s o = (o', Ok (p, ev)).
Proof. exact crash_point_scores. Qed.
Print Assumptions C26_scoring_works_at_every_crash_point.

(** The log of a history with two learned messages and a store has six changes;
    the hypotheses hold for each of its seven prefixes. *)
Example C26_case (A : num) :
  let xs := [learn_a; SCall (CLearn (SList [WStr (str "a"); WStr (str "b")]) false); SSave] in
  Forall plain_op xs /\ Forall (fun x => ~ is_unlearn x) xs /\
  length (s_log (o_store (fst (run_sops remove_dups xs (fst (shelve_open (A:=A) ∅)))))) = 6.
Proof.
  split; [|split; [repeat constructor; by intros []|by vm_compute]].
  assert (plain (WStr (str "a")) /\ plain (WStr (str "b"))) as [Ha Hb].
  { split; eexists; (split; [reflexivity|]); (split; [|done]);
      repeat constructor; intros [H _]; by apply H. }
  repeat constructor; intros w; simpl; rewrite ?elem_of_cons, elem_of_nil;
    intros Hw; destruct_or?; subst; done.
Qed.

Theorem C26_crash_after_unlearn_refuted :
  forall (A : num), exists it xs (o : shelve_obj A), set_order_ok it /\ Forall plain_op xs /\
  let log := s_log (o_store (fst (run_sops it xs (fst (shelve_open (A:=A) ∅))))) in
  shelve_open (replay ∅ log) = (o, Ok tt) /\
  snd (spamprob_evidence shelve_backend it msg_a o) = Err Exception2.
Proof. exact crash_after_unlearn. Qed.
Print Assumptions C26_crash_after_unlearn_refuted.

Theorem C26_training_on_after_a_crash_refuted :
  forall (A : num), exists it xs n xs', set_order_ok it /\ Forall plain_op xs /\ Forall plain_op xs' /\
    Forall (fun x => ~ is_unlearn x) (xs ++ xs') /\
  let log := s_log (o_store (fst (run_sops it xs (fst (shelve_open (A:=A) ∅))))) in
  let o := fst (run_sops it xs' (fst (shelve_open (A:=A) (replay ∅ (take n log))))) in
  snd (spamprob_evidence shelve_backend it msg_a o) = Err Exception2.
Proof. exact retraining_after_crash. Qed.
Print Assumptions C26_training_on_after_a_crash_refuted.

(** ** C27 *)
Theorem C27_learning_the_reserved_word_raises :
  forall (A : num) (it : set_order) (d : database) (xs : list sop) ks (s : stream) (b : bool),
  set_order_ok it -> left_behind A plain_op d -> Forall plain_op xs ->
  let o := fst (run_sops it xs (fst (shelve_open (A:=A) d))) in
  shelve_keys o = Ok ks ->
  WStr (str "saved state") ∈ elems s ->
  (forall w, w ∈ elems s -> plain w \/ w = WStr (str "saved state")) ->
  snd (learn shelve_backend it s b o) = Err ValueError.
Proof. intros A it d xs ks s b Hit. exact (learn_state_key_fails it Hit d xs ks s b). Qed.
Print Assumptions C27_learning_the_reserved_word_raises.

(** The words of every database can be listed once it was trained. *)
Theorem C27_trained_databases_list_their_words :
  forall (A : num) (it : set_order) (d : database) (xs : list sop) (s : stream) (b : bool),
  set_order_ok it -> left_behind A plain_op d -> Forall plain_op xs -> Forall plain (elems s) ->
  let o := fst (run_sops it (xs ++ [SCall (CLearn s b)]) (fst (shelve_open (A:=A) d))) in
  exists ks, shelve_keys o = Ok ks.
Proof. intros A it d xs s b Hit. exact (trained_lists it Hit d xs s b). Qed.
Print Assumptions C27_trained_databases_list_their_words.

Theorem C27_byte_words_raise_but_count :
  forall (A : num) (it : set_order) (d : database) (xs : list sop) (s : stream) (b : bool),
  set_order_ok it -> left_behind A plain_op d -> Forall plain_op xs ->
  elems s <> [] -> (forall w t, w ∈ elems s -> w <> WStr t) ->
  let o := fst (run_sops it xs (fst (shelve_open (A:=A) d))) in
  exists o' : shelve_obj A, learn shelve_backend it s b o = (o', Err AttributeError) /\
    total_of b o' = (total_of b o + 1)%Z /\ total_of (negb b) o' = total_of (negb b) o /\
    s_db (o_store o') = s_db (o_store o) /\
    snd (spamprob_evidence shelve_backend it s o) = Err AttributeError.
Proof. intros A it d xs s b Hit. exact (learn_foreign_fails it Hit d xs s b). Qed.
Print Assumptions C27_byte_words_raise_but_count.

Theorem C27_other_databases_are_refused :
  forall (A : num) (d : database) x, d !! str "saved state" = Some x -> (forall s h, x <> DState 5 s h) ->
  snd (shelve_open (A:=A) d) = Err ValueError /\ s_db (o_store (fst (shelve_open (A:=A) d))) = d.
Proof. intros A. exact open_refuses. Qed.
Print Assumptions C27_other_databases_are_refused.

Example C27_case_version : ({[str "saved state" := DState 4 1 1]} : database) !! str "saved state" = Some (DState 4 1 1) /\
  forall s h, DState 4 1 1 <> DState 5 s h.
Proof. split; [by rewrite lookup_singleton|done]. Qed.

Example C27_case :
  let s := SList [WBytes (str "a"); WBytes (str "b")] in
  elems s <> [] /\ forall w t, w ∈ elems s -> w <> WStr t.
Proof.
  split; [done|]. intros w t. simpl. rewrite ?elem_of_cons, elem_of_nil.
  intros Hw; destruct_or?; subst; done.
Qed.
