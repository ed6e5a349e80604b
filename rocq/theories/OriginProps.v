(** * Property theorems C138 (header tokens and body tokens are kept apart) *)
From Coq Require Import String.
From Verif Require Import Py NumModel ClassifierModel StripModel RaiseModel TokenModel MessageModel HeadModel HeadCases TrainSpec ShelveApiProofs
  TreeModel TreeSpec TreeCases SidedSpec OriginSpec OriginProofs OriginCases.

(** ** C138 *)
Theorem C138_labels_are_told_apart :
  forall l og l' og' s s', (l, og) ∈ labels -> (l', og') ∈ labels -> l ++ s = l' ++ s' -> l = l' /\ s = s'.
Proof. exact labels_apart. Qed.
Print Assumptions C138_labels_are_told_apart.

Theorem C138_header_tokens_depend_on_their_header :
  forall U E o a2b order, parts_order_ok order -> forall m m' l og s,
  let toks := tokenize_message U E order o a2b in
  (toks m).2 = None -> (toks m').2 = None -> honest m -> honest m' -> (l, og) ∈ labels -> agree_on og m m' ->
  WBytes (l ++ s) ∈ (toks m).1 <-> WBytes (l ++ s) ∈ (toks m').1.
Proof. intros U E o a2b order Ho. exact (header_tokens_same U E o a2b order Ho). Qed.
Print Assumptions C138_header_tokens_depend_on_their_header.

Theorem C138_other_tokens_depend_on_the_texts :
  forall U E o a2b order, parts_order_ok order -> forall m m' w,
  let toks := tokenize_message U E order o a2b in
  (toks m).2 = None -> (toks m').2 = None -> same_texts m m' -> ~ labelled w ->
  w ∈ (toks m).1 <-> w ∈ (toks m').1.
Proof. intros U E o a2b order Ho. exact (body_tokens_same U E o a2b order Ho). Qed.
Print Assumptions C138_other_tokens_depend_on_the_texts.

Theorem C138_texts_without_colons_are_honest :
  forall m, (forall b, text_inside (PBytes b) m -> 58%N ∉ b) -> honest m.
Proof. exact no_colon_honest. Qed.
Print Assumptions C138_texts_without_colons_are_honest.

Example C138_case :
  (58%N ∉ str "Hello there") /\ agree_on (OValues [str "subject"]) (mail h_ann "Hello there") (mail h_bob "good bye") /\
  (toks (mail h_ann "Hello there")).2 = None /\ (toks (mail h_bob "good bye")).2 = None /\
  WBytes (str "subject:lunch") ∈ (toks (mail h_ann "Hello there")).1 /\ WBytes (str "subject:lunch") ∈ (toks (mail h_bob "good bye")).1 /\
  WBytes (str "from:addr:ann") ∈ (toks (mail h_ann "Hello there")).1 /\ WBytes (str "from:addr:ann") ∉ (toks (mail h_bob "good bye")).1.
Proof.
  destruct mails_tokens as (?&?&_). destruct mails_headers as (?&?&?&?).
  split_and!; [apply (bool_decide_unpack _); by vm_compute|apply mails_agree|done..].
Qed.

(** What is learned about them is kept apart, too. *)
Theorem C138_headers_are_learned_apart :
  forall (A : num) it, set_order_ok it -> forall U E o a2b order, parts_order_ok order -> forall (l l' : list (part * bool)) ws,
  let toks := tokenize_message U E order o a2b in
  let learned l := learn_all U E o a2b it order l (c_new false ∅ : obj A (gmap pyword winfo)) in
  (forall mb, mb ∈ l -> (toks mb.1).2 = None /\ honest mb.1) -> (forall mb, mb ∈ l' -> (toks mb.1).2 = None /\ honest mb.1) ->
  (forall w, w ∈ ws -> exists lb og s, (lb, og) ∈ labels /\ w = WBytes (lb ++ s) /\ Forall2 (fun x y => x.2 = y.2 /\ agree_on og x.1 y.1) l l') ->
  Forall2 (fun x y => x.2 = y.2) l l' ->
  (spamprob_evidence mem_backend it (SIter ws) (learned l)).2 = (spamprob_evidence mem_backend it (SIter ws) (learned l')).2.
Proof. intros A it Hit U E o a2b order Ho. exact (learned_headers it Hit U E o a2b order Ho). Qed.
Print Assumptions C138_headers_are_learned_apart.

Theorem C138_texts_are_learned_apart :
  forall (A : num) it, set_order_ok it -> forall U E o a2b order, parts_order_ok order -> forall (l l' : list (part * bool)) ws,
  let toks := tokenize_message U E order o a2b in
  let learned l := learn_all U E o a2b it order l (c_new false ∅ : obj A (gmap pyword winfo)) in
  (forall mb, mb ∈ l -> (toks mb.1).2 = None) -> (forall mb, mb ∈ l' -> (toks mb.1).2 = None) ->
  (forall w, w ∈ ws -> ~ labelled w) -> Forall2 (fun x y => x.2 = y.2 /\ same_texts x.1 y.1) l l' ->
  (spamprob_evidence mem_backend it (SIter ws) (learned l)).2 = (spamprob_evidence mem_backend it (SIter ws) (learned l')).2.
Proof. intros A it Hit U E o a2b order Ho. exact (learned_bodies it Hit U E o a2b order Ho). Qed.
Print Assumptions C138_texts_are_learned_apart.

Example C138_learned_case :
  let l := [(mail h_ann "Hello there", true)] in let l' := [(mail h_bob "good bye", true)] in let l'' := [(mail h_bob "Hello there", true)] in
  (forall mb, mb ∈ l -> (toks mb.1).2 = None /\ honest mb.1) /\ (forall mb, mb ∈ l' -> (toks mb.1).2 = None /\ honest mb.1) /\
  (forall mb, mb ∈ l'' -> (toks mb.1).2 = None) /\
  Forall2 (fun x y => x.2 = y.2 /\ agree_on (OValues [str "subject"]) x.1 y.1) l l' /\
  Forall2 (fun x y => x.2 = y.2 /\ same_texts x.1 y.1) l l'' /\ ~ labelled (WBytes (str "hello")).
Proof.
  destruct mails_tokens as (?&?&_). cbv zeta.
  split_and!.
  - intros mb ->%elem_of_list_singleton. split; [done|]. apply mail_honest, (bool_decide_unpack _). by vm_compute.
  - intros mb ->%elem_of_list_singleton. split; [done|]. apply mail_honest, (bool_decide_unpack _). by vm_compute.
  - intros mb ->%elem_of_list_singleton. by vm_compute.
  - constructor; [split; [done|apply mails_agree]|constructor].
  - constructor; [split; [done|apply mail_same_texts]|constructor].
  - apply (not_labelled (str "hello") []). by vm_compute.
Qed.

(** A text can forge the tokens of headers. *)
Theorem C138_words_of_texts_are_tokens :
  forall U E o a2b order, parts_order_ok order -> forall m w,
  let toks := tokenize_message U E order o a2b in
  (toks m).2 = None -> shows_word m w -> 3 <= length w <= 12 -> WBytes w ∈ (toks m).1.
Proof. intros U E o a2b order Ho. exact (shown_words_are_tokens U E o a2b order Ho). Qed.
Print Assumptions C138_words_of_texts_are_tokens.

Theorem C138_texts_do_not_yield_header_tokens_refuted :
  ~ forall U E o a2b order m m' l og s, parts_order_ok order ->
  (tokenize_message U E order o a2b m).2 = None -> (tokenize_message U E order o a2b m').2 = None ->
  (l, og) ∈ labels -> agree_on og m m' ->
  WBytes (l ++ s) ∈ (tokenize_message U E order o a2b m).1 <-> WBytes (l ++ s) ∈ (tokenize_message U E order o a2b m').1.
Proof. exact bodies_forge. Qed.
Print Assumptions C138_texts_do_not_yield_header_tokens_refuted.

(** A message with a From header whose text is the token of a missing From header *)
Example C138_forged_case :
  shows_word (mail h_bob "from:none") (str "from:none") /\ labelled (WBytes (str "from:none")) /\
  WBytes (str "from:none") ∈ (toks (mail h_bob "from:none")).1 /\ WBytes (str "from:none") ∉ (toks (mail h_bob "good bye")).1 /\
  WBytes (str "from:none") ∈ (toks (mail h_none "Hello there")).1.
Proof. destruct forged_shown as [? ?]. destruct forged as (?&?&?). by split_and!. Qed.
