(** * Cases for the theorems about options, and witnesses of what does not hold *)
From Coq Require Import String.
From Verif Require Import Py RegexSpec StripModel StripSpec MessageModel MessageSpec TokenModel TokenSpec TokenProofs HeadModel HeadSpec
  HeadProofs HeadCases MailSpec MailCases MailProofs OptModel OptSpec OptHeadProofs OptBodyProofs OptProofs.
Local Open Scope nat_scope.

Ltac decided := apply (bool_decide_unpack _); by vm_compute.

(** ** Basic header tokens *)
Definition offer : headers := [(str "Subject", HText (str "free money")); (str "X-Spam", HText (str "free now"))].
Example offer_basic : tokenize_headers_with ascii plain true true None default_opts [] offer =
  ([WStr (str "subject:free"); WStr (str "subject:money"); WStr (str "x-spam:free"); WStr (str "x-spam:now")], None).
Proof. by vm_compute. Qed.
Example skipped_case : skipped_name (str "Received Date X-Spam").
Proof. by exists (str "spam"). Qed.
Lemma skipping_refuted : ~ forall U E only hb o parts h ts k v t, sane U -> no_none E ->
  tokenize_headers_with U E true only hb o parts h = (ts, None) -> (k, v) ∈ h ->
  lower k = str "received" \/ lower k = str "date" \/ str "x-" `prefix_of` lower k ->
  WStr (lower k ++ str ":" ++ t) ∉ ts.
Proof.
  intros H. apply (H ascii plain true None default_opts [] offer _ (str "X-Spam") (HText (str "free now")) (str "free") ascii_sane plain_no_none offer_basic).
  - by right; left.
  - right; right. by exists (str "spam").
  - decided.
Qed.
Lemma call_arguments_refuted : ~ forall U E only hb o b a2b parts h octets images texts ts vs t s bs, sane U -> no_none E ->
  tokenize_headers_with U E true only hb o parts h = (ts, None) -> WStr t ∈ ts -> encoded (WStr t) s ->
  tokenizer_call_with U E true only hb o b a2b parts h octets images texts = (vs, None) -> vs = WBytes <$> bs -> s ∈ bs.
Proof.
  intros H.
  set (vs := (tokenizer_call_with ascii plain true true None default_opts default_bopts (fun _ => Err ValueError) [] offer [] [] []).1).
  destruct (call_with_sound ascii plain true true None default_opts default_bopts (fun _ => Err ValueError) [] offer [] [] [] vs
    ascii_sane plain_no_none) as (bs & E & _); [by vm_compute|].
  assert (str "x-spam:now" ∈ bs) as HI.
  { apply (H ascii plain true None default_opts default_bopts (fun _ => Err ValueError) [] offer [] [] [] _ vs (str "x-spam:now") (str "x-spam:now") bs
      ascii_sane plain_no_none offer_basic); [decided|left; by eexists|by vm_compute|done]. }
  assert (WBytes (str "x-spam:now") ∈ vs) as HV by (rewrite E; apply elem_of_list_fmap; by eexists).
  revert HV. decided.
Qed.

(** ** Habeas headers *)
Definition warranted : headers := (fun ov => (ov.1, HText ov.2)) <$> habeas_headers.
Example warranted_case : tokenize_headers_with ascii plain false false (Some true) default_opts [] warranted =
  (WStr (str "x-habeas-swe:valid") :: (tokenize_headers ascii plain default_opts [] warranted).1, None).
Proof. by vm_compute. Qed.
Example warranted_list : habeas_list (Some true) warranted [WStr (str "x-habeas-swe:valid")] /\
  habeas_list (Some true) ((str "x-HABEAS-swe-4", HText (str "Copyright 2003")) :: warranted) [WStr (str "x-habeas-swe:invalid")] /\
  habeas_list (Some true) (take 8 warranted) [] /\
  habeas_list (Some false) (take 2 warranted) [WStr (str "x-habeas-swe-1:valid"); WStr (str "x-habeas-swe-2:valid")].
Proof. split_and!; apply habeas_iff; by vm_compute. Qed.

(** ** Octet streams and images *)
Example parts_case : tokenize_body_with (with_parts true true) (fun _ => Err ValueError)
  [PBytes (str "GIF89a..."); PNone] [PBytes (str "abcdefgh"); PRaises (Some (str "abcdefgh"))] [PBytes (str "see image")] =
  ([WStr (str "octet:b'GIF89'"); WStr (str "control: octet payload is None"); WStr (str "control: couldn't decode image");
    WStr (str "image-size:2**4"); WBytes (str "see"); WBytes (str "image")], None).
Proof. by vm_compute. Qed.

(** ** Runs of short words *)
Example shorts_case : tokenize_part_with with_shorts (fun _ => Err ValueError) (PBytes (str "buy v i a g r a here i am")) =
  ([WBytes (str "buy"); WBytes (str "here"); WStr (str "short:2")], None).
Proof. by vm_compute. Qed.
Lemma trailing_run_refuted : ~ forall a2b b ws ts, words b ws -> ws <> [] -> Forall (fun w => length w < 3) ws ->
  tokenize_part_with with_shorts a2b (PBytes b) = (ts, None) -> exists k, WStr (str "short:" ++ k) ∈ ts.
Proof.
  intros H. destruct (H (fun _ => Err ValueError) (str "v i a g r a") (words_of (str "v i a g r a")) []) as (k & Hk).
  - apply words_of_spec.
  - by vm_compute.
  - decided.
  - by vm_compute.
  - by apply elem_of_nil in Hk.
Qed.

(** ** Options that make text parts raise *)
Example fancy_case : (tokenize_payload_with with_fancy (str "see http://x.org/ now")).2 = None.
Proof. by vm_compute. Qed.
Lemma fancy_refuted : ~ forall b, tokenizable b -> tokenizable_with with_fancy b.
Proof.
  intros H. specialize (H (str "www.x.org")).
  destruct (payload_with_cases with_fancy (str "www.x.org")) as [(ts & E & _)|[_ HN]]; [by vm_compute in E|].
  apply HN, H. destruct (payload_cases (str "www.x.org")) as [(ts & _ & _ & HT)|[E _]]; [done|by vm_compute in E].
Qed.
Example bare_case : bare_url (str "www.x.org") /\ ~ bare_url (str "www..org").
Proof.
  split.
  - exists (str "www."), 120%N, (str ".org"). split_and!; [done|decided|done|].
    apply (StripProofs.forallb_Forall _ _ StripProofs.url_char_spec). by vm_compute.
  - intros (p & c & rest & E & Hp & Hc & _). rewrite !elem_of_cons, elem_of_nil in Hp. destruct Hp as [-> |[-> |[]]]; [|done].
    change (str "www..org") with (str "www." ++ 46%N :: str "org") in E. apply app_inv_head in E. by injection E as <- _.
Qed.
Example pick_apart_case : exists t, Forall2 lower_of (str "see http://x.org") t /\
  occurs (url_begin (Bopts false false false false false true)) t.
Proof.
  exists (str "see http://x.org"). split; [apply blower_spec|]. exists (str "see "), (str "http://x.org"), []. split; [done|].
  split; [|done]. exists (str "http"), (str "x.org"). split_and!; [done|decided|done|].
  apply (StripProofs.forallb_Forall _ _ StripProofs.url_char_spec). by vm_compute.
Qed.

(** ** A whole message *)
Definition all_body : bopts := Bopts true true true false true false.
Example message_with_case : exists bs, message_list_with ascii plain (Some false) (Topts false false true true true) all_body
    [page; note] (mail_headers ++ warranted) [PBytes (str "MZ")] [PBytes (str "abcdefgh")] [PBytes (str "v i a g r a http://x.org hello")] bs /\
  str "short:2" ∈ bs /\ str "octet:b'MZ'" ∈ bs /\ str "image-size:2**3" ∈ bs /\ str "x-habeas-swe-9:valid" ∈ bs /\ str "proto:http" ∈ bs.
Proof.
  set (g := tokenizer_call_with ascii plain false false (Some false) (Topts false false true true true) all_body (fun _ => Err ValueError)
    [page; note] (mail_headers ++ warranted) [PBytes (str "MZ")] [PBytes (str "abcdefgh")] [PBytes (str "v i a g r a http://x.org hello")]).
  destruct (call_with_sound ascii plain false false (Some false) (Topts false false true true true) all_body (fun _ => Err ValueError)
    [page; note] (mail_headers ++ warranted) [PBytes (str "MZ")] [PBytes (str "abcdefgh")] [PBytes (str "v i a g r a http://x.org hello")]
    g.1 ascii_sane plain_no_none) as (bs & E & H).
  { apply injective_projections; [reflexivity|by vm_compute]. }
  exists bs. split; [done|].
  assert (bs = (fun w => match w with WBytes b => b | _ => [] end) <$> (WBytes <$> bs)) as ->.
  { rewrite <- list_fmap_compose. symmetry. apply list_fmap_id. }
  rewrite <- E. split_and!; decided.
Qed.
