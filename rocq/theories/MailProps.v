(** * Theorems about tokenizing a whole message (C82)
    A message that meets the hypotheses is in MailCases.v. *)
From Coq Require Import String.
From Verif Require Import Py StripModel MessageModel TokenModel HeadModel HeadSpec MailSpec MailProofs HeadCases MailCases.

Theorem C82_what_is_yielded : forall U E basic only o a2b parts h texts vs, sane U -> no_none E ->
  tokenizer_call U E basic only o a2b parts h texts = (vs, None) ->
  exists bs, vs = WBytes <$> bs /\ message_list U E o parts h texts bs.
Proof. exact call_sound. Qed.
Print Assumptions C82_what_is_yielded.

Theorem C82_everything_is_yielded : forall U E basic only o a2b parts h texts bs, sane U -> no_none E ->
  message_list U E o parts h texts bs ->
  exists bs', tokenizer_call U E basic only o a2b parts h texts = (WBytes <$> bs', None) /\ bs ≡ₚ bs'.
Proof. exact call_complete. Qed.
Print Assumptions C82_everything_is_yielded.

Theorem C82_which_messages_can_be_tokenized : forall U E basic only o a2b parts h texts, sane U -> no_none E ->
  (tokenizer_call U E basic only o a2b parts h texts).2 = None <-> exists bs, message_list U E o parts h texts bs.
Proof. exact call_iff. Qed.
Print Assumptions C82_which_messages_can_be_tokenized.

Theorem C82_tokens_are_determined : forall U E o parts h texts bs bs', sane U -> no_none E ->
  message_list U E o parts h texts bs -> message_list U E o parts h texts bs' -> bs ≡ₚ bs'.
Proof. exact message_list_det. Qed.
Print Assumptions C82_tokens_are_determined.

Theorem C82_order_of_text_parts : forall U E o parts h texts texts' bs, texts ≡ₚ texts' ->
  message_list U E o parts h texts bs ->
  exists bs', message_list U E o parts h texts' bs' /\ bs ≡ₚ bs'.
Proof. exact message_texts_order. Qed.
Print Assumptions C82_order_of_text_parts.

(** Cases *)
Example C82_message_case_1 : exists bs, message_list ascii plain (Topts false false true true true) [page; note] mail_headers [PBytes (str "hello world")] bs /\
  str "world" ∈ bs /\ str "received:org" ∈ bs /\ str "sfxlen:1" ∈ bs /\ str "header:SUBJECT:1" ∈ bs.
Proof. exact message_case. Qed.

Example C82_message_case_2 : ~ exists bs, message_list ascii plain default_opts [note] congratulations [PBytes (str "hello")] bs.
Proof. exact no_message_case. Qed.
