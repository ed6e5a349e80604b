(** * Concrete messages for C138 *)
From Coq Require Import String.
From Verif Require Import Py NumModel ClassifierModel StripModel StripSpec RaiseModel TokenModel TokenSpec TokenProofs MessageModel HeadModel HeadSpec HeadProofs HeadCases
  TrainSpec ShelveApiProofs TreeModel TreeSpec TreeProofs TreeCases OriginSpec OriginProofs.

(** A message without parts *)
Definition mail (h : headers) (b : string) : part := Part (info "text/plain") h (Leaf (PBytes (str b))).
Definition h_ann : headers := [(str "From", HText (str "ann@a.org")); (str "Subject", HText (str "Free lunch"))].
Definition h_bob : headers := [(str "From", HText (str "bob@b.org")); (str "Subject", HText (str "Free lunch"))].
Definition h_none : headers := [(str "Subject", HText (str "Hello"))].

Lemma mail_inside p h b : inside p (mail h b) <-> p = mail h b.
Proof. split; [by inversion 1|intros ->; constructor]. Qed.

Lemma mail_text t h b : text_inside t (mail h b) <-> t = PBytes (str b).
Proof.
  split.
  - intros (p&->%mail_inside&_&<-). done.
  - intros ->. exists (mail h b). split_and!; [constructor|right; by exists (str "plain")|done].
Qed.

Lemma mail_honest h b : 58%N ∉ str b -> honest (mail h b).
Proof. intros H. apply no_colon_honest. by intros b' [= ->]%mail_text. Qed.

Lemma mail_same_texts h h' b : same_texts (mail h b) (mail h' b).
Proof. intros t. by rewrite !mail_text. Qed.

Lemma mail_agree_parts h h' b b' : agree_on OParts (mail h b) (mail h' b').
Proof. intros x. split; intros (p&->%mail_inside&<-); eexists; (split; [constructor|done]). Qed.

Lemma values_one name h vs : lower name = name -> values name h vs -> vs = (filter (fun kv : codes * hval => lower kv.1 = name) h).*2.
Proof.
  intros _. induction 1 as [|k v h vs Hk _ IH|k v h vs Hk _ IH]; [done|..]; rewrite filter_cons; cbn [fst].
  - rewrite decide_True by done. cbn [fmap list_fmap snd]. by f_equal.
  - by rewrite decide_False.
Qed.
Lemma values_filter name h : values name h (filter (fun kv : codes * hval => lower kv.1 = name) h).*2.
Proof.
  induction h as [|[k v] h IH]; [constructor|]. rewrite filter_cons. cbn [fst]. destruct (decide (lower k = name)); by constructor.
Qed.
Lemma same_values name h h' : lower name = name ->
  (filter (fun kv : codes * hval => lower kv.1 = name) h).*2 = (filter (fun kv : codes * hval => lower kv.1 = name) h').*2 ->
  forall vs, values name h vs <-> values name h' vs.
Proof. intros Hl E vs. split; intros ->%values_one; try done; [rewrite E|rewrite <- E]; apply values_filter. Qed.

Lemma mails_agree b b' : agree_on (OValues [str "subject"]) (mail h_ann b) (mail h_bob b').
Proof.
  intros name vs ->%elem_of_list_singleton. apply same_values; by vm_compute.
Qed.

Notation toks := (tokenize_message ascii plain (fun l => l) default_opts no_a2b).

Lemma mails_tokens : (toks (mail h_ann "Hello there")).2 = None /\ (toks (mail h_bob "good bye")).2 = None /\
  (toks (mail h_bob "from:none")).2 = None /\ (toks (mail h_none "Hello there")).2 = None.
Proof. split_and!; by vm_compute. Qed.

Lemma mails_headers :
  WBytes (str "subject:lunch") ∈ (toks (mail h_ann "Hello there")).1 /\ WBytes (str "subject:lunch") ∈ (toks (mail h_bob "good bye")).1 /\
  WBytes (str "from:addr:ann") ∈ (toks (mail h_ann "Hello there")).1 /\ WBytes (str "from:addr:ann") ∉ (toks (mail h_bob "good bye")).1.
Proof. split_and!; apply (bool_decide_unpack _); by vm_compute. Qed.

Lemma forged : WBytes (str "from:none") ∈ (toks (mail h_bob "from:none")).1 /\ WBytes (str "from:none") ∉ (toks (mail h_bob "good bye")).1 /\
  WBytes (str "from:none") ∈ (toks (mail h_none "Hello there")).1.
Proof. split_and!; apply (bool_decide_unpack _); by vm_compute. Qed.

Lemma forged_shown : shows_word (mail h_bob "from:none") (str "from:none") /\ labelled (WBytes (str "from:none")).
Proof.
  assert (labelled (WBytes (str "from:none"))) as HL.
  { exists (str "from:"), (OValues [str "from"]), (str "none"). split; [apply (bool_decide_unpack _); by vm_compute|done]. }
  split; [|done].
  destruct (text_tokens no_a2b (PBytes (str "from:none")) (WBytes (str "from:none")) (str "from:none")) as [H|(b&s&s'&urls&ws&[= <-]&H1&H2&H3&H4&_)].
  - by vm_compute.
  - apply (bool_decide_unpack _). by vm_compute.
  - done.
  - done.
  - exists (str "from:none"), s, s', urls, ws. split_and!; try done. by apply mail_text.
Qed.

Lemma bodies_forge : ~ forall U E o a2b order m m' l og s, parts_order_ok order ->
  (tokenize_message U E order o a2b m).2 = None -> (tokenize_message U E order o a2b m').2 = None ->
  (l, og) ∈ labels -> agree_on og m m' ->
  WBytes (l ++ s) ∈ (tokenize_message U E order o a2b m).1 <-> WBytes (l ++ s) ∈ (tokenize_message U E order o a2b m').1.
Proof.
  intros H. destruct mails_tokens as (_&H2&H3&_). destruct forged as (F1&F2&_).
  specialize (H ascii plain default_opts no_a2b (fun l => l) (mail h_bob "from:none") (mail h_bob "good bye") (str "from:") (OValues [str "from"]) (str "none")
    same_order H3 H2 ltac:(apply (bool_decide_unpack _); by vm_compute) ltac:(done)).
  apply F2. by apply H.
Qed.
