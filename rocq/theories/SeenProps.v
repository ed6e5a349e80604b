(** * Property theorems C111, C112, C113 (headers that are read, and classification of learned messages) *)
From Coq Require Import String Reals.
From Verif Require Import Py NumModel ClassifierModel TrainSpec ScoreSpec RealModel RealProofs StripModel RaiseModel TokenModel MessageModel MessageSpec
  HeadModel HeadCases ShelveApiProofs TreeModel TreeSpec TreeProofs TreeCases SeenSpec SeenProofs SidedSpec SidedProofs SeenCases.

(** ** C111 *)
Theorem C111_tokens :
  forall (U : unicode) (E : mailpkg) (o : topts) (a2b : codes -> res codes) parts h h' texts,
  count_all o = false -> seen (mine_received o) h = seen (mine_received o) h' ->
  tokenizer_call U E false false o a2b parts h texts = tokenizer_call U E false false o a2b parts h' texts.
Proof. exact call_seen. Qed.
Print Assumptions C111_tokens.

Theorem C111_training :
  forall (U : unicode) (E : mailpkg) (o : topts) (a2b : codes -> res codes) (A : num) it order order' m m' is_spam
    (ob : obj A (gmap pyword winfo)),
  parts_order_ok order -> parts_order_ok order' -> set_order_ok it -> count_all o = false ->
  seen (mine_received o) (part_headers m) = seen (mine_received o) (part_headers m') -> alike m m' -> o_bigrams ob = Some false ->
  let r := learn_gen mem_backend it (tokenize_message U E order o a2b m) is_spam ob in
  let r' := learn_gen mem_backend it (tokenize_message U E order' o a2b m') is_spam ob in
  same_training r.1 r'.1 /\ is_ok r.2 = is_ok r'.2.
Proof. intros U E o a2b A. exact (seen_learn U E o a2b). Qed.
Print Assumptions C111_training.

Theorem C111_scores :
  forall (U : unicode) (E : mailpkg) (o : topts) (a2b : codes -> res codes) (A : num), total_num A ->
  forall it0 it order order' m m' hist,
  parts_order_ok order -> parts_order_ok order' -> set_order_ok it0 -> set_order_ok it -> count_all o = false ->
  seen (mine_received o) (part_headers m) = seen (mine_received o) (part_headers m') -> alike m m' ->
  let ob := fst (run mem_backend it0 hist (c_new false ∅ : obj A (gmap pyword winfo))) in
  same_result (score_gen mem_backend it (tokenize_message U E order o a2b m) ob).2
              (score_gen mem_backend it (tokenize_message U E order' o a2b m') ob).2.
Proof. intros U E o a2b A. exact (seen_score U E o a2b). Qed.
Print Assumptions C111_scores.

(** Nothing can be left out of what is seen. *)
Theorem C111_each_value_matters :
  forall mine n, n ∈ valued mine ->
  words_of (Topts false false false false mine) [(n, HText (str "<1@one.org> from one.org x"))] <>
  words_of (Topts false false false false mine) [(n, HText (str "<2@two.org> from two.org x"))].
Proof. exact each_value_matters. Qed.
Print Assumptions C111_each_value_matters.

Theorem C111_each_count_matters :
  forall n, n ∈ counted ->
  words_of default_opts [(n, HText (str "x"))] <> words_of default_opts [(n, HText (str "x")); (n, HText (str "x"))].
Proof. exact each_count_matters. Qed.
Print Assumptions C111_each_count_matters.

Example C111_case : count_all default_opts = false /\ seen false h_plain = seen false h_other /\ h_plain <> h_other /\
  seen false h_plain = [(str "Received", None); (str "To", Some (HText (str "me@b.org"))); (str "subject", Some (HText (str "Hi")))] /\
  (tokenizer_call ascii plain false false default_opts no_a2b [] h_plain []).2 = None /\
  WBytes (str "to:addr:b.org") ∈ words_of default_opts h_plain.
Proof.
  split; [done|]. split_and!; [apply seen_case..|by vm_compute|]. apply (bool_decide_unpack _). by vm_compute.
Qed.

(** ** C112 *)
Theorem C112_training_on_a_filtered_message :
  forall (U : unicode) (E : mailpkg) (o : topts) (a2b : codes -> res codes) (A : num) it order order' x b is_spam
    (ob : obj A (gmap pyword winfo)) hstr (A' : num) fs lv fc arg clues so m,
  count_all o = false -> parts_order_ok order -> parts_order_ok order' -> set_order_ok it -> o_bigrams ob = Some false ->
  let m' := (add_sb_headers hstr A' fs lv fc arg clues so m).1 in
  (forall c, g_c m' = Some c -> c ∉ o_notate_to A' so /\ c ∉ o_notate_subject A' so) ->
  let r := learn_gen mem_backend it (tokenize_message U E order o a2b (Part x (g_h m) b)) is_spam ob in
  let r' := learn_gen mem_backend it (tokenize_message U E order' o a2b (Part x (g_h m') b)) is_spam ob in
  same_training r.1 r'.1 /\ is_ok r.2 = is_ok r'.2.
Proof.
  intros U E o a2b A it order order' x b is_spam ob hstr A' fs lv fc arg clues so m Hc Ho Ho' Hit Hb m' Hn.
  exact (others_learn U E o a2b Hc it order order' x _ _ b is_spam ob (eq_sym (add_keeps hstr A' fs lv fc arg clues so m Hn)) Ho Ho' Hit Hb).
Qed.
Print Assumptions C112_training_on_a_filtered_message.

Theorem C112_scoring_a_filtered_message :
  forall (U : unicode) (E : mailpkg) (o : topts) (a2b : codes -> res codes) (A : num), total_num A ->
  forall it0 it order order' x b hist hstr (A' : num) fs lv fc arg clues so m,
  count_all o = false -> parts_order_ok order -> parts_order_ok order' -> set_order_ok it0 -> set_order_ok it ->
  let m' := (add_sb_headers hstr A' fs lv fc arg clues so m).1 in
  (forall c, g_c m' = Some c -> c ∉ o_notate_to A' so /\ c ∉ o_notate_subject A' so) ->
  let ob := fst (run mem_backend it0 hist (c_new false ∅ : obj A (gmap pyword winfo))) in
  same_result (score_gen mem_backend it (tokenize_message U E order o a2b (Part x (g_h m) b)) ob).2
              (score_gen mem_backend it (tokenize_message U E order' o a2b (Part x (g_h m') b)) ob).2.
Proof.
  intros U E o a2b A HA it0 it order order' x b hist hstr A' fs lv fc arg clues so m Hc Ho Ho' H0 Hit m' Hn.
  exact (others_score U E o a2b Hc HA it0 it order order' x _ _ b hist (eq_sym (add_keeps hstr A' fs lv fc arg clues so m Hn)) Ho Ho' H0 Hit).
Qed.
Print Assumptions C112_scoring_a_filtered_message.

Theorem C112_scoring_after_removing_the_headers :
  forall (U : unicode) (E : mailpkg) (o : topts) (a2b : codes -> res codes) (A : num), total_num A ->
  forall it0 it order order' x b hist h,
  count_all o = false -> parts_order_ok order -> parts_order_ok order' -> set_order_ok it0 -> set_order_ok it ->
  let ob := fst (run mem_backend it0 hist (c_new false ∅ : obj A (gmap pyword winfo))) in
  same_result (score_gen mem_backend it (tokenize_message U E order o a2b (Part x h b)) ob).2
              (score_gen mem_backend it (tokenize_message U E order' o a2b (Part x (remove_sb_headers false false h).1 b)) ob).2.
Proof.
  intros U E o a2b A HA it0 it order order' x b hist h Hc Ho Ho' H0 Hit.
  exact (others_score U E o a2b Hc HA it0 it order order' x _ _ b hist (removed_others h) Ho Ho' H0 Hit).
Qed.
Print Assumptions C112_scoring_after_removing_the_headers.

(** With a notation, the classification itself becomes a word of the message. *)
Theorem C112_with_notations_refuted :
  forall (A : num) hstr fs lv fc (p : F A), ~ forall o m, count_all o = false ->
  forall x clues (so : opts A) U E a2b parts texts,
  tokenizer_call U E false false o a2b parts (g_h (add_sb_headers hstr A fs lv fc x clues so m).1) texts =
  tokenizer_call U E false false o a2b parts (g_h m) texts.
Proof. exact notation_is_read. Qed.
Print Assumptions C112_with_notations_refuted.

(** So does the presence of the header when all header lines are counted. *)
Theorem C112_when_all_headers_are_counted_refuted :
  forall (A : num) hstr fs lv fc (p : F A), ~ forall o m x clues (so : opts A) U E a2b parts texts,
  o_notate_to A so = [] -> o_notate_subject A so = [] ->
  tokenizer_call U E false false o a2b parts (g_h (add_sb_headers hstr A fs lv fc x clues so m).1) texts =
  tokenizer_call U E false false o a2b parts (g_h m) texts.
Proof. exact counting_reads_all. Qed.
Print Assumptions C112_when_all_headers_are_counted_refuted.

Example C112_case : forall (A : num) fs lv fc p,
  let m := Mail None None None h_plain in
  let so := Opts A true true true p true [] [] in
  let m' := (add_sb_headers (fun s => s) A fs lv fc (CFloat A p) [] so m).1 in
  (forall c, g_c m' = Some c -> c ∉ o_notate_to A so /\ c ∉ o_notate_subject A so) /\
  length (g_h m') = 9 /\ (tokenize_message ascii plain (fun l => l) default_opts no_a2b (letter h_plain)).2 = None.
Proof.
  intros A fs lv fc p. split_and!; [|reflexivity|by vm_compute]. intros c _. split; apply not_elem_of_nil.
Qed.

(** ** C113 *)
Theorem C113_words_of_one_side :
  forall (M : machine) (U : unicode) (E : mailpkg) (o : topts) (a2b : codes -> res codes) (it : set_order), set_order_ok it ->
  forall order (l : list (part * bool)) (b : bool) order' m,
  let toks := tokenize_message U E order o a2b in
  let g := tokenize_message U E order' o a2b m in
  (Z.of_nat (length l) < 2 ^ 48)%Z ->
  (forall mb : part * bool, mb ∈ l -> (toks mb.1).2 = None) -> g.2 = None ->
  (forall w, w ∈ g.1 ->
     (exists mb, mb ∈ l /\ mb.2 = b /\ w ∈ (toks mb.1).1) /\ forall mb, mb ∈ l -> w ∈ (toks mb.1).1 -> mb.2 = b) ->
  exists o' p ev, score_gen mem_backend it g
      (learn_all U E o a2b it order l (c_new false ∅ : obj (mnum M) (gmap pyword winfo))) = (o', Ok (p, ev)) /\
    (9 / 10 < (if b then p else 1 - p))%R /\ classify (mnum M) p = (if b then spam else ham).
Proof. intros M U E o a2b it Hit order. exact (sided_message U E o a2b it Hit order). Qed.
Print Assumptions C113_words_of_one_side.

Theorem C113_learned_messages_are_recognised :
  forall (M : machine) (U : unicode) (E : mailpkg) (o : topts) (a2b : codes -> res codes) (it : set_order), set_order_ok it ->
  forall order (l : list (part * bool)) (b : bool) order' m m',
  (Z.of_nat (length l) < 2 ^ 48)%Z ->
  parts_order_ok order -> parts_order_ok order' -> count_all o = false ->
  (forall mb : part * bool, mb ∈ l -> (tokenize_message U E order o a2b mb.1).2 = None) ->
  (forall mb : part * bool, mb ∈ l -> mb.2 = b) -> (m, b) ∈ l ->
  seen (mine_received o) (part_headers m) = seen (mine_received o) (part_headers m') -> alike m m' ->
  exists o' p ev, score_gen mem_backend it (tokenize_message U E order' o a2b m')
      (learn_all U E o a2b it order l (c_new false ∅ : obj (mnum M) (gmap pyword winfo))) = (o', Ok (p, ev)) /\
    (9 / 10 < (if b then p else 1 - p))%R /\ classify (mnum M) p = (if b then spam else ham).
Proof. intros M U E o a2b it Hit order. exact (sided_again U E o a2b it Hit order). Qed.
Print Assumptions C113_learned_messages_are_recognised.

Example C113_case : set_order_ok remove_dups /\ parts_order_ok (fun l => l) /\ parts_order_ok (@rev part) /\
  (forall mb, mb ∈ learned -> (tokenize_message ascii plain (fun l => l) default_opts no_a2b mb.1).2 = None) /\
  (forall mb, mb ∈ learned -> mb.2 = true) /\ (letter h_plain, true) ∈ learned /\
  seen false h_plain = seen false h_other /\ alike (letter h_plain) (letter h_other) /\ letter h_plain <> letter h_other.
Proof. split_and!; [exact dups_ok|exact same_order|exact reverse_order|apply learned_case..]. Qed.
