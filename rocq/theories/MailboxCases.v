(** * Concrete uses of classifiers with messages *)
From Coq Require Import String Reals Lia.
From Verif Require Import Py NumModel ClassifierModel TrainSpec StripModel RaiseModel ShelveModel TokenModel MessageModel HeadModel HeadCases
  FloatApiProofs TreeModel TreeSpec TreeProofs TreeCases SeenSpec SeenProofs SeenCases ObserveModel ObserveSpec MailboxSpec.

(** A database with a word learned from text, and a history on it *)
Definition shelf : gmap codes dbval := {[ str "saved state" := DState 5 3 1; str "cheap" := DWord (WI 2 1) ]}.
Definition mail_history : list mop :=
  [MTrain (letter h_plain) true; MStore; MScore (letter h_plain); MReopen; MUntrain (letter h_plain) true; MLoad].

(** A meeting in the ham corpus, an offer in the spam corpus, and a message that cannot be
    tokenized in both *)
Definition h_meeting : headers :=
  [(str "Subject", HText (str "Meeting")); (str "From", HText (str "ann@a.org")); (str "Message-ID", HText (str "<1@a.org>"));
   (str "X-Mailer", HText (str "elm")); (str "Cc", HText (str "c@a.org")); (str "Reply-To", HText (str "d@a.org"));
   (str "Sender", HText (str "d@a.org"))].
Definition meeting : part := Part (info "text/enriched") h_meeting (Leaf (PBytes (str "at noon"))).
Definition inbox (r : nat) : part := match r with 0 => letter h_plain | 1 => meeting | _ => letter congratulations end.
Definition clerk : program := Program
  (fun r => Some [N.of_nat r]) (fun _ => true) (fun r => tokenize_message ascii plain (fun l => l) default_opts no_a2b (inbox r))
  (fun ev i => match ev with Added => [Watcher 0 (i =? 1)] | _ => [] end).
Definition deliveries : list ocall := [OAdd 0 2 None true; OAdd 0 1 None true; OAdd 1 0 None true; OAdd 1 2 None true; ORemove 1 0 true].

Lemma clerk_apart : Forall (fun w => w ∉ (p_tok clerk 1).1) (p_tok clerk 0).1.
Proof. apply (bool_decide_unpack _). by vm_compute. Qed.

Lemma deliveries_case :
  (Z.of_nat (length (requests clerk deliveries) + length deliveries) < 2 ^ 48)%Z /\
  OAdd 1 0 None true ∈ deliveries /\ Watcher 0 true ∈ p_receivers clerk Added 1 /\ trainable clerk 0 /\ trainable clerk 1 /\ ~ trainable clerk 2 /\
  seen false (part_headers (inbox 0)) = seen false (part_headers (letter h_other)) /\ alike (inbox 0) (letter h_other) /\
  (forall w x t, w ∈ (p_tok clerk 0).1 -> x ∈ deliveries -> t ∈ asked clerk x -> t_class t = 0 -> trainable clerk (call_msg x) ->
     w ∈ (p_tok clerk (call_msg x)).1 -> t_spam t = true).
Proof.
  assert (~ trainable clerk 2) as H2 by (intros [_ H]; vm_compute in H; discriminate).
  split_and!.
  - by vm_compute.
  - right. right. left.
  - left.
  - split; by vm_compute.
  - split; by vm_compute.
  - exact H2.
  - by vm_compute.
  - by constructor.
  - intros w x t Hw Hx Ht _ Hr Hw'. unfold deliveries in Hx. rewrite !elem_of_cons in Hx.
    destruct Hx as [->|[->|[->|[->|[->|Hx]]]]]; cbn [asked call_msg clerk p_receivers] in *.
    + done.
    + exfalso. by apply (proj1 (Forall_forall _ _) clerk_apart w).
    + apply elem_of_list_singleton in Ht as ->. done.
    + done.
    + by apply elem_of_nil in Ht.
    + by apply elem_of_nil in Hx.
Qed.
