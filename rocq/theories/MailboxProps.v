(** * Property theorems C114, C115 (classifiers used with messages) *)
From Coq Require Import String Reals Lia.
From Verif Require Import Py NumModel ClassifierModel TrainSpec ScoreSpec RealModel RealProofs StripModel RaiseModel ShelveModel TokenModel MessageModel
  HeadModel HeadCases ShelveApiProofs PickleModel PickleSpec PickleProofs RaceProofs TreeModel TreeSpec TreeProofs TreeCases SeenSpec SeenProofs SeenCases ObserveModel ObserveSpec
  MailboxSpec MailboxProofs DeliverProofs MailboxCases.

(** ** C114 *)
Theorem C114_no_message_is_learned :
  forall (U : unicode) (E : mailpkg) (o : topts) (a2b : codes -> res codes) (it : set_order), set_order_ok it ->
  forall order (A : num) d xs (ob0 : obj A sstore), shelve_open d = (ob0, Ok tt) ->
  let '(ob, rs) := run_mops U E o a2b it order xs ob0 in
  Forall2 (fun x r => is_ok r = negb (reads_message x)) xs rs /\
  forall k, k <> str "saved state" -> s_db (o_store ob) !! k = d !! k.
Proof. exact @mail_nothing_learned. Qed.
Print Assumptions C114_no_message_is_learned.

Theorem C114_only_the_totals_grow :
  forall (U : unicode) (E : mailpkg) (o : topts) (a2b : codes -> res codes) (it : set_order), set_order_ok it ->
  forall order (A : num) d xs (ob0 : obj A sstore) m b, shelve_open d = (ob0, Ok tt) ->
  let ob := (run_mops U E o a2b it order xs ob0).1 in
  let ob' := (run_mops U E o a2b it order [MTrain m b; MStore; MReopen] ob).1 in
  total_of b ob' = (total_of b ob + 1)%Z /\ total_of (negb b) ob' = total_of (negb b) ob.
Proof. exact @mail_totals_grow. Qed.
Print Assumptions C114_only_the_totals_grow.

Example C114_case : is_ok (shelve_open (A := rnum b64) shelf).2 = true /\
  set_order_ok remove_dups /\ shelf !! str "cheap" = Some (DWord (WI 2 1)) /\
  Exists (fun x => reads_message x = true) mail_history /\ Exists (fun x => reads_message x = false) mail_history.
Proof. split_and!; [by vm_compute|exact dups_ok|by vm_compute|by left|by right; left]. Qed.

(** ** C115 *)
Theorem C115_words_of_one_side :
  forall (M : machine) it, set_order_ok it -> forall (p : program) j (U : unicode) (E : mailpkg) (o : topts) (a2b : codes -> res codes) order (msg : nat -> part),
  (forall r, p_tok p r = tokenize_message U E order o a2b (msg r)) ->
  forall c xs (s : state (mnum M) (gmap pyword winfo)) (b : bool) order' m', codec_ok c ->
  s_class s j = c_new false ∅ -> (forall i, o_bigrams (s_class s i) <> None) ->
  (Z.of_nat (length (requests p xs) + length xs) < 2 ^ 48)%Z ->
  let toks := tokenize_message U E order o a2b in
  let g := tokenize_message U E order' o a2b m' in
  g.2 = None ->
  (forall w, w ∈ g.1 -> exists x t, x ∈ xs /\ t ∈ asked p x /\ t_class t = j /\ t_spam t = b /\
     trainable p (call_msg x) /\ w ∈ (toks (msg (call_msg x))).1) ->
  (forall w x t, w ∈ g.1 -> x ∈ xs -> t ∈ asked p x -> t_class t = j -> trainable p (call_msg x) ->
     w ∈ (toks (msg (call_msg x))).1 -> t_spam t = b) ->
  exists (o1 o2 : obj (mnum M) (gmap pyword winfo)) pr ev,
    pickle_open c None (pickle_store c (s_class (run_ocalls mem_backend it p xs s).1 j)) = (o1, Ok tt) /\
    score_gen mem_backend it g o1 = (o2, Ok (pr, ev)) /\
    (9 / 10 < (if b then pr else 1 - pr))%R /\ classify (mnum M) pr = (if b then spam else ham).
Proof. intros M it Hit. exact (deliver it Hit). Qed.
Print Assumptions C115_words_of_one_side.

Theorem C115_delivered_messages_are_recognised :
  forall (M : machine) it, set_order_ok it -> forall (p : program) j (U : unicode) (E : mailpkg) (o : topts) (a2b : codes -> res codes) order (msg : nat -> part),
  (forall r, p_tok p r = tokenize_message U E order o a2b (msg r)) ->
  forall c xs (s : state (mnum M) (gmap pyword winfo)) (b : bool) order' i r id t m', codec_ok c ->
  s_class s j = c_new false ∅ -> (forall i, o_bigrams (s_class s i) <> None) ->
  (Z.of_nat (length (requests p xs) + length xs) < 2 ^ 48)%Z ->
  parts_order_ok order -> parts_order_ok order' -> count_all o = false ->
  OAdd i r id true ∈ xs -> t ∈ p_receivers p Added i -> t_class t = j -> t_spam t = b -> trainable p r ->
  seen (mine_received o) (part_headers (msg r)) = seen (mine_received o) (part_headers m') -> alike (msg r) m' ->
  (forall w x t, w ∈ (p_tok p r).1 -> x ∈ xs -> t ∈ asked p x -> t_class t = j -> trainable p (call_msg x) ->
     w ∈ (p_tok p (call_msg x)).1 -> t_spam t = b) ->
  exists (o1 o2 : obj (mnum M) (gmap pyword winfo)) pr ev,
    pickle_open c None (pickle_store c (s_class (run_ocalls mem_backend it p xs s).1 j)) = (o1, Ok tt) /\
    score_gen mem_backend it (tokenize_message U E order' o a2b m') o1 = (o2, Ok (pr, ev)) /\
    (9 / 10 < (if b then pr else 1 - pr))%R /\ classify (mnum M) pr = (if b then spam else ham).
Proof. intros M. exact deliver_recognised. Qed.
Print Assumptions C115_delivered_messages_are_recognised.

Example C115_case : set_order_ok remove_dups /\ codec_ok unary_codec /\ parts_order_ok (fun l => l) /\ count_all default_opts = false /\
  (Z.of_nat (length (requests clerk deliveries) + length deliveries) < 2 ^ 48)%Z /\
  OAdd 1 0 None true ∈ deliveries /\ Watcher 0 true ∈ p_receivers clerk Added 1 /\ trainable clerk 0 /\ trainable clerk 1 /\ ~ trainable clerk 2 /\
  seen false (part_headers (inbox 0)) = seen false (part_headers (letter h_other)) /\ alike (inbox 0) (letter h_other) /\
  (forall w x t, w ∈ (p_tok clerk 0).1 -> x ∈ deliveries -> t ∈ asked clerk x -> t_class t = 0 -> trainable clerk (call_msg x) ->
     w ∈ (p_tok clerk (call_msg x)).1 -> t_spam t = true).
Proof. split_and!; [exact dups_ok|exact unary_codec_ok|exact same_order|done|apply deliveries_case..]. Qed.
