(** * Properties C58, C70, C71 and C72: words and bodies *)
From Coq Require Import String.
From Verif Require Import Py RegexSpec StripModel StripSpec TokenModel TokenSpec TokenProofs TokenCases.

(** ** C58 *)
Theorem C58_body_word : forall w, ~ bad_word w ->
  exists ts, tokenize_word (WBytes w) = (ts, None) /\ word_tokens w ts.
Proof. exact good_word_tokens. Qed.
Print Assumptions C58_body_word.

Theorem C58_bad_body_word_raises : forall w, bad_word w ->
  exists ts, tokenize_word (WBytes w) = (ts, Some TypeError) /\
  (((length w < 40)%nat /\ 46%N ∈ w /\ ts = []) \/
   (~ ((length w < 40)%nat /\ 46%N ∈ w) /\ exists t, skipped w t /\ ts = [t])).
Proof. exact bad_word_raises. Qed.
Print Assumptions C58_bad_body_word_raises.

Theorem C58_text_word : forall w,
  (length w < 3 -> tokenize_word (WStr w) = ([], None)) /\
  (3 <= length w <= 12 -> tokenize_word (WStr w) = ([WStr w], None)) /\
  (12 < length w -> (tokenize_word (WStr w)).2 = Some TypeError).
Proof. exact text_word. Qed.
Print Assumptions C58_text_word.

Theorem C58_text_without_bad_words : forall text ws, words text ws -> Forall (fun w => ~ bad_word w) ws ->
  exists tss, tokenize_text text = (mjoin tss, None) /\ Forall2 word_tokens ws tss.
Proof. exact tokenize_text_good. Qed.
Print Assumptions C58_text_without_bad_words.

Theorem C58_text_with_a_bad_word_raises : forall text ws, words text ws -> ~ Forall (fun w => ~ bad_word w) ws ->
  (tokenize_text text).2 = Some TypeError.
Proof. exact tokenize_text_bad. Qed.
Print Assumptions C58_text_with_a_bad_word_raises.

(** Cases *)
Example C58_case_1 : bad_word (str "someone@example.com") /\ ~ bad_word (str "extraordinarily") /\
  bad_word (str "naturally-odd" ++ [233%N]).
Proof. exact bad_word_case. Qed.

Example C58_case_2 : tokenize_word (WBytes (str "extraordinarily")) = ([WStr (str "skip:e 10")], None).
Proof. exact skip_case. Qed.

(** ** C70 *)
Theorem C70_body_outcome : forall b,
  (tokenizable b -> exists ts, tokenize_payload b = (ts, None) /\ body_tokens b ts) /\
  (~ tokenizable b -> (tokenize_payload b).2 = Some TypeError).
Proof. exact payload_outcome. Qed.
Print Assumptions C70_body_outcome.

Theorem C70_body_tokens_are_determined : forall b ts ts', body_tokens b ts -> body_tokens b ts' -> ts = ts'.
Proof. exact body_tokens_det. Qed.
Print Assumptions C70_body_tokens_are_determined.

Theorem C70_case_does_not_matter : forall b t, Forall2 lower_of b t -> tokenize_payload t = tokenize_payload b.
Proof. exact payload_lower_of. Qed.
Print Assumptions C70_case_does_not_matter.

Theorem C70_plain_text : forall b t ws wss,
  Forall (fun c => c ∉ str "<&=:") b -> Forall2 lower_of b t -> ~ occurs uu_begin t ->
  words t ws -> Forall (fun w => ~ bad_word w) ws -> Forall2 word_tokens ws wss ->
  tokenize_payload b = (mjoin wss, None).
Proof. exact plain_text. Qed.
Print Assumptions C70_plain_text.

(** HTML is not tokenized: a tag outside URLs and stripped sections raises. *)
Theorem C70_html_raises : forall b t t' urls,
  Forall2 lower_of b t -> left_over t t' urls -> occurs html_tag t' ->
  (tokenize_payload b).2 = Some TypeError.
Proof. exact html_raises. Qed.
Print Assumptions C70_html_raises.

Theorem C70_every_body_is_tokenized_refuted : ~ forall b, exists ts, tokenize_payload b = (ts, None).
Proof. exact not_every_body. Qed.
Print Assumptions C70_every_body_is_tokenized_refuted.

(** Cases *)
Example C70_case_1 :
  tokenizable (str "Buy FR<!--x-->EE pills at http://a.org/b now height=0") /\
  tokenize_payload (str "Buy FR<!--x-->EE pills at http://a.org/b now height=0") =
    ([WStr (str "virus:b'height=0'"); WBytes (str "proto:http"); WBytes (str "url:a"); WBytes (str "url:org");
      WBytes (str "url:b"); WBytes (str "buy"); WBytes (str "free"); WBytes (str "pills"); WBytes (str "now");
      WBytes (str "height=0")], None).
Proof. exact tokenizable_case. Qed.

Example C70_case_2 :
  ~ tokenizable (str "<html>hello</html>") /\ ~ tokenizable (str "fish &#38; chips") /\ ~ tokenizable (str "one&nbsp;two") /\
  ~ tokenizable (str "write to someone@example.com") /\ ~ tokenizable (str "begin 644 readme").
Proof. exact untokenizable_cases. Qed.

Example C70_case_3 : Forall (fun c => c ∉ str "<&=:") (str "Hello wonderful world") /\
  ~ occurs uu_begin (str "hello wonderful world") /\
  words (str "hello wonderful world") [str "hello"; str "wonderful"; str "world"] /\
  Forall (fun w => ~ bad_word w) [str "hello"; str "wonderful"; str "world"].
Proof. exact plain_case. Qed.

Example C70_case_4 : left_over (str "a <b>bold</b> word") (str "a <b>bold</b> word") [] /\
  occurs html_tag (str "a <b>bold</b> word").
Proof. exact html_case. Qed.

(** ** C71 *)
Theorem C71_repair : forall a2b text lead rest, b64_lead text lead rest ->
  try_to_repair_damaged_base64 a2b text =
    match lead with
    | [] => Ok text
    | _ => match a2b lead with Ok _ => Err TypeError | Err _ => Ok rest end
    end.
Proof. exact repair_spec. Qed.
Print Assumptions C71_repair.

Theorem C71_leading_base64_is_determined : forall text,
  (exists lead rest, b64_lead text lead rest /\ text = lead ++ rest) /\
  (forall l r l' r', b64_lead text l r -> b64_lead text l' r' -> l = l' /\ r = r').
Proof. exact lead_determined. Qed.
Print Assumptions C71_leading_base64_is_determined.

Theorem C71_undecodable_part_raises : forall a2b raw, exists ts,
  tokenize_part a2b (PRaises (Some raw)) = (WStr (str "control: couldn't decode") :: ts, Some TypeError).
Proof. exact undecodable_raises. Qed.
Print Assumptions C71_undecodable_part_raises.

(** Cases *)
Example C71_case : b64_lead (str "QUJD" ++ [10%N] ++ str "RA==" ++ [10%N] ++ str "list footer")
  (str "QUJD" ++ [10%N] ++ str "RA==" ++ [10%N]) (str "list footer").
Proof. exact lead_case. Qed.

(** ** C72 *)
Theorem C72_body_outcome : forall a2b parts,
  (~ Exists part_raises parts -> exists tss, tokenize_body a2b parts = (mjoin tss, None) /\ Forall2 part_tokens parts tss) /\
  (Exists part_raises parts -> (tokenize_body a2b parts).2 = Some TypeError).
Proof. exact body_outcome. Qed.
Print Assumptions C72_body_outcome.

Theorem C72_order_of_parts : forall a2b parts parts', parts ≡ₚ parts' ->
  match tokenize_body a2b parts, tokenize_body a2b parts' with
  | (ts, None), (ts', None) => ts ≡ₚ ts'
  | (_, Some e), (_, Some e') => e = e'
  | _, _ => False
  end.
Proof. exact body_order. Qed.
Print Assumptions C72_order_of_parts.

(** Cases *)
Example C72_case : [PBytes (str "hello world"); PNone] ≡ₚ [PNone; PBytes (str "hello world")] /\
  ~ Exists part_raises [PBytes (str "hello world"); PNone] /\
  Exists part_raises [PBytes (str "hello world"); PBytes (str "<b>bold</b>")].
Proof. exact order_case. Qed.
