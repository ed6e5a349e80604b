(** * Concrete header lists, seen and unseen *)
From Coq Require Import String.
From Verif Require Import Py NumModel ClassifierModel StripModel RaiseModel TokenModel MessageModel MessageSpec HeadModel HeadCases
  TrainSpec ShelveApiProofs TreeModel TreeSpec TreeProofs TreeCases SeenSpec SeenProofs.

(** The words of a message without parts, with this header list *)
Definition words_of (o : topts) (h : headers) : list pyword :=
  (tokenizer_call ascii plain false false o no_a2b [] h []).1.

Lemma each_value_matters mine n : n ∈ valued mine ->
  words_of (Topts false false false false mine) [(n, HText (str "<1@one.org> from one.org x"))] <>
  words_of (Topts false false false false mine) [(n, HText (str "<2@two.org> from two.org x"))].
Proof.
  intros Hn. destruct mine; revert n Hn; apply Forall_forall; apply (bool_decide_unpack _); by vm_compute.
Qed.

Lemma each_count_matters n : n ∈ counted ->
  words_of default_opts [(n, HText (str "x"))] <> words_of default_opts [(n, HText (str "x")); (n, HText (str "x"))].
Proof. revert n. apply Forall_forall. apply (bool_decide_unpack _). by vm_compute. Qed.

(** A message, the same with other headers *)
Definition letter (h : headers) : part := Part (info "text/plain") h (Leaf (PBytes (str "Hello there"))).
Definition h_plain : headers :=
  [(str "Received", HText (str "from a")); (str "To", HText (str "me@b.org")); (str "X-Spam", HText (str "no")); (str "subject", HText (str "Hi"))].
Definition h_other : headers :=
  [(str "X-Spambayes-Classification", HText (str "spam")); (str "Received", HText (str "from c")); (str "To", HText (str "me@b.org"));
   (str "subject", HText (str "Hi")); (str "Delivered-To", HText (str "you"))].

Lemma seen_case : seen false h_plain = seen false h_other /\ h_plain <> h_other /\
  seen false h_plain = [(str "Received", None); (str "To", Some (HText (str "me@b.org"))); (str "subject", Some (HText (str "Hi")))].
Proof. split_and!; [by vm_compute|by vm_compute|by vm_compute]. Qed.

(** Notations are read *)
Lemma notation_is_read (A : num) hstr fs lv fc (p : F A) : ~ forall o m, count_all o = false ->
  forall x clues (so : opts A) U E a2b parts texts,
  tokenizer_call U E false false o a2b parts (g_h (add_sb_headers hstr A fs lv fc x clues so m).1) texts =
  tokenizer_call U E false false o a2b parts (g_h m) texts.
Proof.
  intros H. specialize (H default_opts (Mail None None None [(str "Subject", HText (str "Hi"))]) eq_refl (CEnum A spam) []
    (Opts A false false false p false [] [spam]) ascii plain no_a2b [] []).
  apply (f_equal (fun g => bool_decide (WBytes (str "subject:spam") ∈ g.1))) in H. by vm_compute in H.
Qed.

Lemma counting_reads_all (A : num) hstr fs lv fc (p : F A) : ~ forall o m x clues (so : opts A) U E a2b parts texts,
  o_notate_to A so = [] -> o_notate_subject A so = [] ->
  tokenizer_call U E false false o a2b parts (g_h (add_sb_headers hstr A fs lv fc x clues so m).1) texts =
  tokenizer_call U E false false o a2b parts (g_h m) texts.
Proof.
  intros H. specialize (H (Topts true false false false false) (Mail None None None [(str "Subject", HText (str "Hi"))]) (CEnum A spam) []
    (Opts A false false false p false [] []) ascii plain no_a2b [] [] eq_refl eq_refl).
  apply (f_equal (fun g => bool_decide (WBytes (str "header:X-Spambayes-Classification:1") ∈ g.1))) in H. by vm_compute in H.
Qed.

(** Two messages learned as spam, and the second again after it was filtered *)
Definition learned : list (part * bool) := [(letter [(str "To", HText (str "you@c.org"))], true); (letter h_plain, true)].

Lemma learned_case : (forall mb, mb ∈ learned -> (tokenize_message ascii plain (fun l => l) default_opts no_a2b mb.1).2 = None) /\
  (forall mb, mb ∈ learned -> mb.2 = true) /\ (letter h_plain, true) ∈ learned /\
  seen false h_plain = seen false h_other /\ alike (letter h_plain) (letter h_other) /\ letter h_plain <> letter h_other.
Proof.
  split_and!.
  - intros mb [->|[->|H]%elem_of_cons]%elem_of_cons; [by vm_compute..|by apply elem_of_nil in H].
  - intros mb [->|[->|H]%elem_of_cons]%elem_of_cons; [done..|by apply elem_of_nil in H].
  - right. left.
  - by vm_compute.
  - by constructor.
  - done.
Qed.
