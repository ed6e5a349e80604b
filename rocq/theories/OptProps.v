(** * Theorems about tokenizing with options (C83 - C88)
    Cases that meet the hypotheses are in OptCases.v. *)
From Coq Require Import String.
From Verif Require Import Py RegexSpec StripModel StripSpec MessageModel MessageSpec TokenModel TokenSpec HeadModel HeadSpec MailSpec
  OptModel OptSpec OptHeadProofs OptBodyProofs OptProofs HeadCases MailCases OptCases.

(** ** C83 *)
Theorem C83_what_is_yielded : forall U E basic only hb o parts h ts, sane U -> no_none E ->
  tokenize_headers_with U E basic only hb o parts h = (ts, None) -> header_list_with U E basic only hb o parts h ts.
Proof. exact headers_with_sound. Qed.
Print Assumptions C83_what_is_yielded.

Theorem C83_everything_is_yielded : forall U E basic only hb o parts h ts, sane U -> no_none E -> header_list_with U E basic only hb o parts h ts ->
  exists ts', tokenize_headers_with U E basic only hb o parts h = (ts', None) /\ ts ≡ₚ ts'.
Proof. exact headers_with_complete. Qed.
Print Assumptions C83_everything_is_yielded.

Theorem C83_each_word : forall U E only hb o parts h ts k v s ws w, sane U -> no_none E ->
  tokenize_headers_with U E true only hb o parts h = (ts, None) ->
  (k, v) ∈ h -> ~ skipped_name k -> text_value v s -> runs (subject_word_char U) s ws -> w ∈ ws -> 3 <= length w ->
  WStr (lower k ++ str ":" ++ w) ∈ ts.
Proof. exact basic_word. Qed.
Print Assumptions C83_each_word.

Theorem C83_long_word_raises : forall U E only hb o parts h k v s ws w, (k, v) ∈ h -> ~ skipped_name k -> text_value v s ->
  runs (subject_word_char U) s ws -> w ∈ ws -> 12 < length w ->
  (tokenize_headers_with U E true only hb o parts h).2 <> None.
Proof. exact basic_raise. Qed.
Print Assumptions C83_long_word_raises.

Theorem C83_names_without_blank : forall k, 32%N ∉ k -> ~ skipped_name k.
Proof. exact no_blank_not_skipped. Qed.
Print Assumptions C83_names_without_blank.

Theorem C83_skipping_refuted : ~ forall U E only hb o parts h ts k v t, sane U -> no_none E ->
  tokenize_headers_with U E true only hb o parts h = (ts, None) -> (k, v) ∈ h ->
  lower k = str "received" \/ lower k = str "date" \/ str "x-" `prefix_of` lower k ->
  WStr (lower k ++ str ":" ++ t) ∉ ts.
Proof. exact skipping_refuted. Qed.
Print Assumptions C83_skipping_refuted.

Theorem C83_arguments_of_the_call_refuted : ~ forall U E only hb o b a2b parts h octets images texts ts vs t s bs, sane U -> no_none E ->
  tokenize_headers_with U E true only hb o parts h = (ts, None) -> WStr t ∈ ts -> encoded (WStr t) s ->
  tokenizer_call_with U E true only hb o b a2b parts h octets images texts = (vs, None) -> vs = WBytes <$> bs -> s ∈ bs.
Proof. exact call_arguments_refuted. Qed.
Print Assumptions C83_arguments_of_the_call_refuted.

Theorem C83_call_ignores_its_arguments : forall U E basic only hb o b a2b parts h octets images texts, tokenizer_call_with U E basic only hb o b a2b parts h octets images texts =
  tokenizer_call_with U E false false hb o b a2b parts h octets images texts.
Proof. exact arguments_ignored. Qed.
Print Assumptions C83_call_ignores_its_arguments.

(** Cases *)
Example C83_case_1 : tokenize_headers_with ascii plain true true None default_opts [] offer =
  ([WStr (str "subject:free"); WStr (str "subject:money"); WStr (str "x-spam:free"); WStr (str "x-spam:now")], None).
Proof. exact offer_basic. Qed.

Example C83_case_2 : skipped_name (str "Received Date X-Spam").
Proof. exact skipped_case. Qed.

(** ** C84 *)
Theorem C84_habeas_tokens_are_added : forall U E only hb o parts h, ((tokenize_headers_with U E false only hb o parts h).2 = (tokenize_headers U E o parts h).2) /\
  forall ts, tokenize_headers_with U E false only hb o parts h = (ts, None) ->
    exists hts ts0, tokenize_headers U E o parts h = (ts0, None) /\ habeas_list hb h hts /\ ts ≡ₚ hts ++ ts0.
Proof. exact habeas_added. Qed.
Print Assumptions C84_habeas_tokens_are_added.

Theorem C84_habeas_tokens_are_determined : forall hb h ts ts', habeas_list hb h ts -> habeas_list hb h ts' -> ts = ts'.
Proof. exact habeas_det. Qed.
Print Assumptions C84_habeas_tokens_are_determined.

(** Cases *)
Example C84_case_1 : tokenize_headers_with ascii plain false false (Some true) default_opts [] warranted =
  (WStr (str "x-habeas-swe:valid") :: (tokenize_headers ascii plain default_opts [] warranted).1, None).
Proof. exact warranted_case. Qed.

Example C84_case_2 : habeas_list (Some true) warranted [WStr (str "x-habeas-swe:valid")] /\
  habeas_list (Some true) ((str "x-HABEAS-swe-4", HText (str "Copyright 2003")) :: warranted) [WStr (str "x-habeas-swe:invalid")] /\
  habeas_list (Some true) (take 8 warranted) [] /\
  habeas_list (Some false) (take 2 warranted) [WStr (str "x-habeas-swe-1:valid"); WStr (str "x-habeas-swe-2:valid")].
Proof. exact warranted_list. Qed.

(** ** C85 *)
Theorem C85_octets_and_images_are_added : forall octets images a2b ops ips texts, ((tokenize_body_with (with_parts octets images) a2b ops ips texts).2 = (tokenize_body a2b texts).2) /\
  forall ts, tokenize_body_with (with_parts octets images) a2b ops ips texts = (ts, None) <->
    exists ots its bts, octets_list octets ops ots /\ images_list images ips its /\ tokenize_body a2b texts = (bts, None) /\
      ts = ots ++ its ++ bts.
Proof. exact body_parts. Qed.
Print Assumptions C85_octets_and_images_are_added.

Theorem C85_image_tokens_are_determined : forall wanted ps ts ts', images_list wanted ps ts -> images_list wanted ps ts' -> ts = ts'.
Proof. exact images_det. Qed.
Print Assumptions C85_image_tokens_are_determined.

(** Cases *)
Example C85_case : tokenize_body_with (with_parts true true) (fun _ => Err ValueError)
  [PBytes (str "GIF89a..."); PNone] [PBytes (str "abcdefgh"); PRaises (Some (str "abcdefgh"))] [PBytes (str "see image")] =
  ([WStr (str "octet:b'GIF89'"); WStr (str "control: octet payload is None"); WStr (str "control: couldn't decode image");
    WStr (str "image-size:2**4"); WBytes (str "see"); WBytes (str "image")], None).
Proof. exact parts_case. Qed.

(** ** C86 *)
Theorem C86_short_token_is_added : forall a2b b ts, tokenize_part_with with_shorts a2b (PBytes b) = (ts, None) <->
  tokenizable b /\ exists t t' urls ws ts0 sts, Forall2 lower_of b t /\ left_over t t' urls /\ words t' ws /\
    tokenize_part a2b (PBytes b) = (ts0, None) /\ short_list true ws sts /\ ts = ts0 ++ sts.
Proof. exact shorts_added. Qed.
Print Assumptions C86_short_token_is_added.

Theorem C86_same_parts_raise : forall a2b b, (tokenize_part_with with_shorts a2b (PBytes b)).2 = None <-> (tokenize_part a2b (PBytes b)).2 = None.
Proof. exact shorts_raise. Qed.
Print Assumptions C86_same_parts_raise.

Theorem C86_short_token_is_determined : forall short ws ts ts', short_list short ws ts -> short_list short ws ts' -> ts = ts'.
Proof. exact short_list_det. Qed.
Print Assumptions C86_short_token_is_determined.

Theorem C86_trailing_run_refuted : ~ forall a2b b ws ts, words b ws -> ws <> [] -> Forall (fun w => length w < 3) ws ->
  tokenize_part_with with_shorts a2b (PBytes b) = (ts, None) -> exists k, WStr (str "short:" ++ k) ∈ ts.
Proof. exact trailing_run_refuted. Qed.
Print Assumptions C86_trailing_run_refuted.

(** Cases *)
Example C86_case : tokenize_part_with with_shorts (fun _ => Err ValueError) (PBytes (str "buy v i a g r a here i am")) =
  ([WBytes (str "buy"); WBytes (str "here"); WStr (str "short:2")], None).
Proof. exact shorts_case. Qed.

(** ** C87 *)
Theorem C87_text_part : forall o b, (tokenizable_with o b -> exists ts, tokenize_payload_with o b = (ts, None) /\ body_tokens_with o b ts) /\
  (~ tokenizable_with o b -> (tokenize_payload_with o b).2 = Some TypeError).
Proof. exact payload_with_outcome. Qed.
Print Assumptions C87_text_part.

Theorem C87_tokens_are_determined : forall o b ts ts', body_tokens_with o b ts -> body_tokens_with o b ts' -> ts = ts'.
Proof. exact body_tokens_with_det. Qed.
Print Assumptions C87_tokens_are_determined.

Theorem C87_url_raises : forall o b t t1 urls w, Forall2 lower_of b t -> stripped (url_begin o) at_once [] t t1 urls -> w ∈ urls ->
  pick_apart o = true \/ bare_url w -> ~ tokenizable_with o b.
Proof. exact url_raises. Qed.
Print Assumptions C87_url_raises.

Theorem C87_picking_apart_raises : forall o b, pick_apart o = true -> (exists t, Forall2 lower_of b t /\ occurs (url_begin o) t) -> ~ tokenizable_with o b.
Proof. exact pick_apart_raises. Qed.
Print Assumptions C87_picking_apart_raises.

Theorem C87_part_makes_body_raise : forall o a2b octets images texts b, ~ tokenizable_with o b -> PBytes b ∈ texts ->
  (tokenize_body_with o a2b octets images texts).2 <> None.
Proof. exact part_in_body_raises. Qed.
Print Assumptions C87_part_makes_body_raise.

Theorem C87_replacing_raises : forall o a2b octets images texts b, replace_nonascii o = true -> PBytes b ∈ texts ->
  (tokenize_body_with o a2b octets images texts).2 <> None.
Proof. exact nonascii_raises. Qed.
Print Assumptions C87_replacing_raises.

Theorem C87_fancy_recognition_refuted : ~ forall b, tokenizable b -> tokenizable_with with_fancy b.
Proof. exact fancy_refuted. Qed.
Print Assumptions C87_fancy_recognition_refuted.

(** Cases *)
Example C87_case_1 : (tokenize_payload_with with_fancy (str "see http://x.org/ now")).2 = None.
Proof. exact fancy_case. Qed.

Example C87_case_2 : bare_url (str "www.x.org") /\ ~ bare_url (str "www..org").
Proof. exact bare_case. Qed.

Example C87_case_3 : exists t, Forall2 lower_of (str "see http://x.org") t /\
  occurs (url_begin (Bopts false false false false false true)) t.
Proof. exact pick_apart_case. Qed.

(** ** C88 *)
Theorem C88_what_is_yielded : forall U E basic only hb o b a2b parts h octets images texts vs, sane U -> no_none E ->
  tokenizer_call_with U E basic only hb o b a2b parts h octets images texts = (vs, None) ->
  exists bs, vs = WBytes <$> bs /\ message_list_with U E hb o b parts h octets images texts bs.
Proof. exact call_with_sound. Qed.
Print Assumptions C88_what_is_yielded.

Theorem C88_everything_is_yielded : forall U E basic only hb o b a2b parts h octets images texts bs, sane U -> no_none E ->
  message_list_with U E hb o b parts h octets images texts bs ->
  exists bs', tokenizer_call_with U E basic only hb o b a2b parts h octets images texts = (WBytes <$> bs', None) /\ bs ≡ₚ bs'.
Proof. exact call_with_complete. Qed.
Print Assumptions C88_everything_is_yielded.

Theorem C88_which_messages_can_be_tokenized : forall U E basic only hb o b a2b parts h octets images texts, sane U -> no_none E ->
  (tokenizer_call_with U E basic only hb o b a2b parts h octets images texts).2 = None <->
  exists bs, message_list_with U E hb o b parts h octets images texts bs.
Proof. exact call_with_iff. Qed.
Print Assumptions C88_which_messages_can_be_tokenized.

Theorem C88_tokens_are_determined : forall U E hb o b parts h octets images texts bs bs', sane U -> no_none E ->
  message_list_with U E hb o b parts h octets images texts bs -> message_list_with U E hb o b parts h octets images texts bs' -> bs ≡ₚ bs'.
Proof. exact message_list_with_det. Qed.
Print Assumptions C88_tokens_are_determined.

Theorem C88_options_as_set : forall U E basic only o a2b parts h octets images texts, tokenizer_call_with U E basic only None o default_bopts a2b parts h octets images texts =
  tokenizer_call U E basic only o a2b parts h texts.
Proof. exact call_default. Qed.
Print Assumptions C88_options_as_set.

(** Cases *)
Example C88_case : exists bs, message_list_with ascii plain (Some false) (Topts false false true true true) all_body
    [page; note] (mail_headers ++ warranted) [PBytes (str "MZ")] [PBytes (str "abcdefgh")] [PBytes (str "v i a g r a http://x.org hello")] bs /\
  str "short:2" ∈ bs /\ str "octet:b'MZ'" ∈ bs /\ str "image-size:2**3" ∈ bs /\ str "x-habeas-swe-9:valid" ∈ bs /\ str "proto:http" ∈ bs.
Proof. exact message_with_case. Qed.
