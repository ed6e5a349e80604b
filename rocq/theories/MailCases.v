(** * A message that meets the hypotheses of the theorems about whole messages *)
From Coq Require Import String.
From Verif Require Import Py StripModel MessageModel TokenModel HeadModel HeadSpec HeadCases MailSpec MailProofs.

Lemma plain_no_none : no_none plain.
Proof. intros [|s|s] chunks [= <-]; by repeat constructor. Qed.

Example message_case : exists bs, message_list ascii plain (Topts false false true true true) [page; note] mail_headers [PBytes (str "hello world")] bs /\
  str "world" ∈ bs /\ str "received:org" ∈ bs /\ str "sfxlen:1" ∈ bs /\ str "header:SUBJECT:1" ∈ bs.
Proof.
  set (g := tokenizer_call ascii plain false false (Topts false false true true true) (fun _ => Err ValueError) [page; note] mail_headers
    [PBytes (str "hello world")]).
  destruct (call_sound ascii plain false false (Topts false false true true true) (fun _ => Err ValueError) [page; note] mail_headers
    [PBytes (str "hello world")] g.1 ascii_sane plain_no_none) as (bs & E & H).
  { apply injective_projections; [reflexivity|by vm_compute]. }
  exists bs. split; [done|].
  assert (bs = (fun w => match w with WBytes b => b | _ => [] end) <$> (WBytes <$> bs)) as ->.
  { rewrite <- list_fmap_compose. symmetry. apply list_fmap_id. }
  rewrite <- E. split_and!; apply (bool_decide_unpack _); by vm_compute.
Qed.
Example no_message_case : ~ exists bs, message_list ascii plain default_opts [note] congratulations [PBytes (str "hello")] bs.
Proof.
  intros H. apply (call_iff ascii plain false false default_opts (fun _ => Err ValueError)) in H; [|apply ascii_sane|apply plain_no_none].
  by vm_compute in H.
Qed.
