(** * C146: training is undone after the message is read again, if it has one text *)
From Coq Require Import String.
From Verif Require Import Py NumModel ClassifierModel TrainSpec ScoreSpec StripModel RaiseModel TokenModel MessageModel MessageSpec HeadModel HeadCases
  TreeModel TreeSpec TreeCases SeenSpec SoleSpec SoleProofs.

Theorem C146_same_tokens_each_time :
  forall (U : unicode) (E : mailpkg) (o : topts) (a2b : codes -> res codes) order order' m n,
  parts_order_ok order -> parts_order_ok order' -> texts m n -> n <= 1 ->
  tokenize_message U E order o a2b m = tokenize_message U E order' o a2b m.
Proof. exact sole_tokens. Qed.
Print Assumptions C146_same_tokens_each_time.

(** For every kind of classifier, with and without bigrams *)
Theorem C146_unread_headers_do_not_matter :
  forall (U : unicode) (E : mailpkg) (o : topts) (a2b : codes -> res codes) (A : num) (St : Type) (bk : backend St) it order order' x h h' b n is_spam
    (ob : obj A St),
  count_all o = false -> parts_order_ok order -> parts_order_ok order' ->
  texts (Part x h b) n -> n <= 1 -> seen (mine_received o) h = seen (mine_received o) h' ->
  learn_gen bk it (tokenize_message U E order o a2b (Part x h b)) is_spam ob =
    learn_gen bk it (tokenize_message U E order' o a2b (Part x h' b)) is_spam ob /\
  unlearn_gen bk it (tokenize_message U E order o a2b (Part x h b)) is_spam ob =
    unlearn_gen bk it (tokenize_message U E order' o a2b (Part x h' b)) is_spam ob /\
  score_gen bk it (tokenize_message U E order o a2b (Part x h b)) ob =
    score_gen bk it (tokenize_message U E order' o a2b (Part x h' b)) ob.
Proof. exact @sole_learn. Qed.
Print Assumptions C146_unread_headers_do_not_matter.

Theorem C146_unlearning_after_reading_again :
  forall (U : unicode) (E : mailpkg) (o : topts) (a2b : codes -> res codes) (A : num) it order order' bigrams hist x h h' b n is_spam,
  count_all o = false -> set_order_ok it -> parts_order_ok order -> parts_order_ok order' ->
  texts (Part x h b) n -> n <= 1 -> seen (mine_received o) h = seen (mine_received o) h' ->
  let ob := fst (run mem_backend it hist (c_new bigrams ∅ : obj A (gmap pyword winfo))) in
  exists ob1 ob2 r, learn_gen mem_backend it (tokenize_message U E order o a2b (Part x h b)) is_spam ob = (ob1, r) /\
    unlearn_gen mem_backend it (tokenize_message U E order' o a2b (Part x h' b)) is_spam ob1 = (ob2, r) /\ same_training ob2 ob.
Proof. exact @sole_unlearn. Qed.
Print Assumptions C146_unlearning_after_reading_again.

Theorem C146_unlearning_after_filtering :
  forall (U : unicode) (E : mailpkg) (o : topts) (a2b : codes -> res codes) (A : num) it order order' bigrams hist x b n is_spam
    hstr (A' : num) fs lv fc arg clues so m,
  count_all o = false -> set_order_ok it -> parts_order_ok order -> parts_order_ok order' -> texts (Part x (g_h m) b) n -> n <= 1 ->
  let m' := (add_sb_headers hstr A' fs lv fc arg clues so m).1 in
  (forall c, g_c m' = Some c -> c ∉ o_notate_to A' so /\ c ∉ o_notate_subject A' so) ->
  let ob := fst (run mem_backend it hist (c_new bigrams ∅ : obj A (gmap pyword winfo))) in
  exists ob1 ob2 r, learn_gen mem_backend it (tokenize_message U E order o a2b (Part x (g_h m) b)) is_spam ob = (ob1, r) /\
    unlearn_gen mem_backend it (tokenize_message U E order' o a2b (Part x (g_h m') b)) is_spam ob1 = (ob2, r) /\ same_training ob2 ob.
Proof. exact sole_filtered. Qed.
Print Assumptions C146_unlearning_after_filtering.

(** Without bigrams: any number of texts, other orders of the parts, other attachments *)
Theorem C146_unlearning_without_bigrams :
  forall (U : unicode) (E : mailpkg) (o : topts) (a2b : codes -> res codes) (A : num) it order order' hist m m' b,
  count_all o = false -> set_order_ok it -> parts_order_ok order -> parts_order_ok order' ->
  seen (mine_received o) (part_headers m) = seen (mine_received o) (part_headers m') -> alike m m' ->
  let ob := fst (run mem_backend it hist (c_new false ∅ : obj A (gmap pyword winfo))) in
  exists ob1 ob2 r r', learn_gen mem_backend it (tokenize_message U E order o a2b m) b ob = (ob1, r) /\
    unlearn_gen mem_backend it (tokenize_message U E order' o a2b m') b ob1 = (ob2, r') /\ is_ok r = is_ok r' /\ same_training ob2 ob.
Proof. exact alike_unlearn. Qed.
Print Assumptions C146_unlearning_without_bigrams.

(** With two texts and bigrams records are left over. *)
Theorem C146_two_texts_refuted : forall (A : num) it, set_order_ok it ->
  ~ forall U E o a2b order order' m b (ob1 ob2 : obj A (gmap pyword winfo)) r1 r2, parts_order_ok order -> parts_order_ok order' -> texts m 2 ->
    learn_gen mem_backend it (tokenize_message U E order o a2b m) b (c_new true ∅) = (ob1, r1) ->
    unlearn_gen mem_backend it (tokenize_message U E order' o a2b m) b ob1 = (ob2, r2) ->
    o_store ob2 = ∅.
Proof. exact two_texts_refuted. Qed.
Print Assumptions C146_two_texts_refuted.

Theorem C146_what_two_texts_leave : forall (A : num) it, set_order_ok it ->
  let toks order := tokenize_message ascii plain order default_opts no_a2b two_parts in
  exists ob1 ob2 : obj A (gmap pyword winfo),
    learn_gen mem_backend it (toks (fun l => l)) true (c_new true ∅) = (ob1, Ok tt) /\
    unlearn_gen mem_backend it (toks (@rev part)) true ob1 = (ob2, Ok tt) /\
    o_nspam ob2 = 0%Z /\ o_nham ob2 = 0%Z /\ o_store ob2 !! WStr (str "bi:b'alpha' b'beta'") = Some (WI 1 0).
Proof. exact two_texts_left. Qed.
Print Assumptions C146_what_two_texts_leave.

Example C146_case : let m h := Part (info "multipart/mixed") h (Multi [text_part "alpha beta"; attachment "%PDF"]) in
  texts (m []) 1 /\ seen false [] = seen false [(str "X-Spambayes-Classification", HText (str "spam"))] /\ count_all default_opts = false.
Proof. exact sole_case. Qed.

Example C146_alike_case : alike two_parts two_parts' /\ seen false (part_headers two_parts) = seen false (part_headers two_parts').
Proof. split; [exact two_parts_alike|reflexivity]. Qed.
