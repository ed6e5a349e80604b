(** * Property theorems C105, C106, C107 (messages with parts) *)
From Coq Require Import String.
From Verif Require Import Py NumModel ClassifierModel TrainSpec ScoreSpec StripModel RaiseModel TokenModel MessageModel HeadModel HeadCases
  ShelveApiProofs TreeModel TreeSpec TreeProofs TreeCases.

(** ** C105 *)
Theorem C105_tokens :
  forall (U : unicode) (E : mailpkg) (o : topts) (a2b : codes -> res codes) order order' m m',
  parts_order_ok order -> parts_order_ok order' -> part_headers m = part_headers m' -> alike m m' ->
  let g := tokenize_message U E order o a2b m in
  let g' := tokenize_message U E order' o a2b m' in
  (g.2 = None <-> g'.2 = None) /\ (g.2 = None -> g'.2 = None -> forall w, w ∈ g.1 <-> w ∈ g'.1).
Proof. exact alike_tokens. Qed.
Print Assumptions C105_tokens.

Theorem C105_training :
  forall (U : unicode) (E : mailpkg) (o : topts) (a2b : codes -> res codes) (A : num) it order order' m m' is_spam
    (ob : obj A (gmap pyword winfo)),
  parts_order_ok order -> parts_order_ok order' -> set_order_ok it ->
  part_headers m = part_headers m' -> alike m m' -> o_bigrams ob = Some false ->
  let r := learn_gen mem_backend it (tokenize_message U E order o a2b m) is_spam ob in
  let r' := learn_gen mem_backend it (tokenize_message U E order' o a2b m') is_spam ob in
  same_training r.1 r'.1 /\ is_ok r.2 = is_ok r'.2.
Proof. intros U E o a2b A. exact (alike_learn U E o a2b). Qed.
Print Assumptions C105_training.

Theorem C105_scores :
  forall (U : unicode) (E : mailpkg) (o : topts) (a2b : codes -> res codes) (A : num), total_num A ->
  forall it0 it order order' m m' hist,
  parts_order_ok order -> parts_order_ok order' -> set_order_ok it0 -> set_order_ok it ->
  part_headers m = part_headers m' -> alike m m' ->
  let ob := fst (run mem_backend it0 hist (c_new false ∅ : obj A (gmap pyword winfo))) in
  same_result (score_gen mem_backend it (tokenize_message U E order o a2b m) ob).2
              (score_gen mem_backend it (tokenize_message U E order' o a2b m') ob).2.
Proof. intros U E o a2b A. exact (alike_score U E o a2b). Qed.
Print Assumptions C105_scores.

Example C105_case : parts_order_ok (fun l => l) /\ parts_order_ok (@rev part) /\ set_order_ok remove_dups /\
  part_headers two_parts = part_headers two_parts' /\ alike two_parts two_parts' /\ two_parts <> two_parts' /\
  (tokenize_message ascii plain (fun l => l) default_opts no_a2b two_parts).2 = None /\
  WBytes (str "alpha") ∈ (tokenize_message ascii plain (fun l => l) default_opts no_a2b two_parts).1 /\
  WBytes (str "alpha") ∈ (tokenize_message ascii plain (@rev part) default_opts no_a2b two_parts').1.
Proof.
  split_and!; [exact same_order|exact reverse_order|exact dups_ok|done|exact two_parts_alike|done|by vm_compute|..];
    apply (bool_decide_unpack _); by vm_compute.
Qed.

(** ** C106 *)
Theorem C106_parts_are_read_one_by_one :
  forall (U : unicode) (E : mailpkg) (o : topts) (a2b : codes -> res codes) order order' m,
  parts_order_ok order -> parts_order_ok order' ->
  let g := tokenize_message U E order o a2b m in
  let each p := tokenize_message U E order' o a2b (alone (part_headers m) p) in
  (g.2 = None <-> forall p, inside p m -> (each p).2 = None) /\
  (g.2 = None -> forall w, w ∈ g.1 <-> exists p, inside p m /\ w ∈ (each p).1).
Proof. exact parts_one_by_one. Qed.
Print Assumptions C106_parts_are_read_one_by_one.

Theorem C106_containers_have_no_text :
  forall (U : unicode) (E : mailpkg) (o : topts) (a2b : codes -> res codes) order x h, parts_order_ok order ->
  tokenize_message U E order o a2b (Part x h (Multi [])) = tokenize_message U E order o a2b (Part x h (Leaf PNone)) /\
  (~ text_type x -> forall b, tokenize_message U E order o a2b (Part x h (Multi [])) = tokenize_message U E order o a2b (Part x h (Leaf b))).
Proof. exact container_alone. Qed.
Print Assumptions C106_containers_have_no_text.

Example C106_case : inside (text_part "hidden words") deep /\
  (tokenize_message ascii plain (fun l => l) default_opts no_a2b deep).2 = None /\
  WBytes (str "hidden") ∈ (tokenize_message ascii plain (fun l => l) default_opts no_a2b deep).1 /\
  WBytes (str "hidden") ∈ (tokenize_message ascii plain (@rev part) default_opts no_a2b (alone [] (text_part "hidden words"))).1 /\
  WBytes (str "hidden") ∉ (tokenize_message ascii plain (@rev part) default_opts no_a2b (alone [] deep)).1.
Proof.
  split_and!; [exact hidden_inside|by vm_compute|..]; apply (bool_decide_unpack _); by vm_compute.
Qed.

(** ** C107 *)
Theorem C107_training :
  forall (U : unicode) (E : mailpkg) (o : topts) (a2b : codes -> res codes) (A : num) it order order' x h ps qs is_spam
    (ob : obj A (gmap pyword winfo)),
  parts_order_ok order -> parts_order_ok order' -> set_order_ok it -> (forall p, p ∈ ps <-> p ∈ qs) -> o_bigrams ob = Some false ->
  let r := learn_gen mem_backend it (tokenize_message U E order o a2b (Part x h (Multi ps))) is_spam ob in
  let r' := learn_gen mem_backend it (tokenize_message U E order' o a2b (Part x h (Multi qs))) is_spam ob in
  same_training r.1 r'.1 /\ is_ok r.2 = is_ok r'.2.
Proof. intros U E o a2b A. exact (same_parts_learn U E o a2b). Qed.
Print Assumptions C107_training.

Theorem C107_scores :
  forall (U : unicode) (E : mailpkg) (o : topts) (a2b : codes -> res codes) (A : num), total_num A ->
  forall it0 it order order' x h ps qs hist,
  parts_order_ok order -> parts_order_ok order' -> set_order_ok it0 -> set_order_ok it -> (forall p, p ∈ ps <-> p ∈ qs) ->
  let ob := fst (run mem_backend it0 hist (c_new false ∅ : obj A (gmap pyword winfo))) in
  same_result (score_gen mem_backend it (tokenize_message U E order o a2b (Part x h (Multi ps))) ob).2
              (score_gen mem_backend it (tokenize_message U E order' o a2b (Part x h (Multi qs))) ob).2.
Proof. intros U E o a2b A. exact (same_parts_score U E o a2b). Qed.
Print Assumptions C107_scores.

Theorem C107_training_with_bigrams_refuted :
  forall (A : num), ~ forall U E o a2b it order order' m is_spam (ob : obj A (gmap pyword winfo)),
  parts_order_ok order -> parts_order_ok order' -> set_order_ok it ->
  same_training (learn_gen mem_backend it (tokenize_message U E order o a2b m) is_spam ob).1
                (learn_gen mem_backend it (tokenize_message U E order' o a2b m) is_spam ob).1.
Proof. exact order_matters_with_bigrams. Qed.
Print Assumptions C107_training_with_bigrams_refuted.

Example C107_case : let ps := [text_part "a b"; text_part "c d"] in let qs := [text_part "c d"; text_part "a b"; text_part "c d"] in
  (forall p, p ∈ ps <-> p ∈ qs) /\ o_bigrams (c_new false ∅ : obj RealModel.exact (gmap pyword winfo)) = Some false.
Proof. cbv zeta. split; [|done]. intros p. rewrite !elem_of_cons. tauto. Qed.
