(** * Theorems about the tokens of headers and about the tokenizer as a whole
    The cases are proved in HeadCases.v. *)
From Coq Require Import String.
From Verif Require Import Py Regex RegexSpec StripModel StripSpec NumModel ClassifierModel MessageModel MessageSpec CdbModel
  TokenModel TokenSpec RaiseModel HeadModel HeadSpec HeadProofs HeadFieldProofs HeadScanProofs HeadCallProofs HeadCases.

(** ** C74 *)
Theorem C74_tokens_of_a_part : forall U x, pt_param x <> PTriple -> (forall s, pt_disposition x <> FHeader s) ->
  crack_content_xyz U x = (part_token_list U x, None).
Proof. exact part_ok. Qed.
Print Assumptions C74_tokens_of_a_part.

Theorem C74_part_raises : forall U x, pt_param x = PTriple \/ (exists s, pt_disposition x = FHeader s) ->
  (crack_content_xyz U x).2 = Some AttributeError.
Proof. exact part_err. Qed.
Print Assumptions C74_part_raises.

Theorem C74_ordinary_names_are_not_bogus_refuted : ~ forall U x f ts e, pt_filename x = Some f -> crack_content_xyz U x = (ts, e) -> e = None ->
  WStr (str "filename:<bogus>") ∉ ts.
Proof. exact ordinary_file_name. Qed.
Print Assumptions C74_ordinary_names_are_not_bogus_refuted.

(** Cases *)
Example C74_case_1 : crack_content_xyz ascii page =
  (WStr <$> [str "content-type:text/html"; str "charset:utf-8"; str "content-disposition:attachment";
             str "filename:fname:a/b.c"; str "filename:<bogus>"], None).
Proof. exact part_case. Qed.

Example C74_case_2 : (crack_content_xyz ascii (Mpart (str "a/b") PTriple None FNone None)).2 = Some AttributeError /\
  (crack_content_xyz ascii (Mpart (str "a/b") PAbsent None (FHeader []) None)).2 = Some AttributeError.
Proof. exact part_raises_case. Qed.

(** ** C75 *)
Theorem C75_subject : forall U E h x chunks, header_or h (str "subject") (FText []) x ->
  decode_header E x = Ok chunks \/ (exists s, x = FText s /\ decode_header E x = Err ValueError /\ chunks = [(WStr s, Some (str "invalid"))]) ->
  Forall (fun xc => xc.1 <> WNone) chunks ->
  (~ Exists (bad_chunk U) chunks -> exists tss, subject_tokens U E h = (mjoin tss, None) /\ Forall2 (chunk_tokens U) chunks tss) /\
  (Exists (bad_chunk U) chunks -> (subject_tokens U E h).2 = Some TypeError).
Proof. exact subject_outcome. Qed.
Print Assumptions C75_subject.

Theorem C75_subject_tokens_are_determined : forall U xc ts ts', chunk_tokens U xc ts -> chunk_tokens U xc ts' -> ts = ts'.
Proof. exact chunk_tokens_det. Qed.
Print Assumptions C75_subject_tokens_are_determined.

Theorem C75_long_word : forall U s c a w b, s = a ++ w ++ b -> Forall (subject_word_char U) w -> 13%N ∉ w -> 12 < length w ->
  bad_chunk U (WStr s, c).
Proof. exact long_word_bad. Qed.
Print Assumptions C75_long_word.

Theorem C75_decoding_raises : forall U E h x e, header_or h (str "subject") (FText []) x -> decode_header E x = Err e -> e <> ValueError ->
  subject_tokens U E h = ([], Some e).
Proof. exact subject_raises. Qed.
Print Assumptions C75_decoding_raises.

Theorem C75_every_subject_is_tokenized_refuted : ~ forall U E h, sane U -> exists ts, subject_tokens U E h = (ts, None).
Proof. exact not_every_subject. Qed.
Print Assumptions C75_every_subject_is_tokenized_refuted.

(** Cases *)
Example C75_case_1 : header_or mail_headers (str "subject") (FText []) (FText (str "Now only $29.95!")) /\
  decode_header plain (FText (str "Now only $29.95!")) = Ok [(WStr (str "Now only $29.95!"), None)].
Proof. exact subject_hypotheses. Qed.

Example C75_case_2 : first_is congratulations (str "subject") (HText (str "Congratulations!")) /\
  text_value (HText (str "Congratulations!")) (str "Congratulations!") /\
  str "Congratulations!" = [] ++ str "Congratulations" ++ str "!" /\
  Forall (subject_word_char ascii) (str "Congratulations") /\ 13%N ∉ str "Congratulations" /\ (12 < length (str "Congratulations"))%nat.
Proof. exact subject_hypotheses_long. Qed.

(** ** C76 *)
Theorem C76_no_header : forall U E h field, lower field = field -> values field h [] ->
  field_tokens U E h field = ([WStr (field ++ str ":none")], None).
Proof. exact field_absent. Qed.
Print Assumptions C76_no_header.

Theorem C76_addresses : forall U E h field vs addrs pss, lower field = field -> values field h vs -> vs <> [] ->
  getaddresses E (fetch <$> vs) = Ok addrs -> Forall2 (name_pieces E) addrs pss ->
  Forall (Forall (fun nc => nc.1 <> WNone)) pss ->
  exists tss nts, field_tokens U E h field = (mjoin tss ++ nts, None) /\
    Forall2 (fun aps ts => one_address U field aps.2 aps.1.2 ts) (zip addrs pss) tss /\
    (nameless addrs = 0 -> nts = []) /\
    (0 < nameless addrs -> exists k, nearest_log2 (nameless addrs) k /\
       nts = [WStr (field ++ str ":no real name:2**" ++ digits k)]).
Proof. exact field_ok. Qed.
Print Assumptions C76_addresses.

Theorem C76_parser_raises : forall U E h field vs e, lower field = field -> values field h vs -> vs <> [] ->
  getaddresses E (fetch <$> vs) = Err e -> field_tokens U E h field = ([], Some e).
Proof. exact field_raises. Qed.
Print Assumptions C76_parser_raises.

(** Cases *)
Example C76_case_1 : values (str "from") mail_headers [HText (str "a@b.org")] /\
  getaddresses plain [FText (str "a@b.org")] = Ok [([], str "a@b.org")] /\ Forall2 (name_pieces plain) [([], str "a@b.org")] [[]].
Proof. exact field_hypotheses. Qed.

Example C76_case_2 : field_tokens ascii plain mail_headers (str "to") =
  (WStr <$> [str "to:addr:c"; str "to:addr:d.org"; str "to:addr:ce"; str "to:addr:d.org"; str "to:addr:cf"; str "to:addr:d.org";
             str "to:no real name:2**2"], None) /\
  field_tokens ascii plain mail_headers (str "sender") = ([WStr (str "sender:none")], None).
Proof. exact field_case. Qed.

(** ** C77 *)
Theorem C77_header_counts : forall o h t, t ∈ count_tokens o h <->
  (exists x n, (count_all o = true \/ lower x ∈ safe_names) /\ n = spelled x h /\ 0 < n /\
     t = WStr (str "header:" ++ x ++ str ":" ++ digits (N.of_nat n))) \/
  (record_absence o = true /\ count_all o = true /\ exists x, 0 < spelled x h /\ lower x ∉ safe_names /\ t = WStr (str "noheader:" ++ x)).
Proof. exact count_elem. Qed.
Print Assumptions C77_header_counts.

Theorem C77_no_token_twice : forall o h, NoDup (count_tokens o h).
Proof. exact count_nodup. Qed.
Print Assumptions C77_no_token_twice.

Theorem C77_order_of_headers : forall o h h', h ≡ₚ h' -> count_tokens o h ≡ₚ count_tokens o h'.
Proof. exact count_perm. Qed.
Print Assumptions C77_order_of_headers.

Theorem C77_absence_recorded_refuted : ~ forall o h x, record_absence o = true -> x ∈ safe_names -> absent h x ->
  WStr (str "noheader:" ++ x) ∈ count_tokens o h.
Proof. exact absence_ignored. Qed.
Print Assumptions C77_absence_recorded_refuted.

(** Cases *)
Example C77_case : count_tokens default_opts mail_headers =
  WStr <$> [str "header:From:1"; str "header:To:1"; str "header:SUBJECT:1"; str "header:Message-Id:1"; str "header:Received:1"; str "header:received:1"] /\
  count_tokens (Topts true true false false false) [(str "X-Other", HNone); (str "Date", HNone); (str "X-Other", HNone)] =
  WStr <$> [str "header:X-Other:2"; str "header:Date:1"; str "noheader:X-Other"].
Proof. exact count_case. Qed.

(** ** C78 *)
Theorem C78_message_id : forall U h s host, sane U -> header_or h (str "message-id") (FText []) (FText s) -> id_host U s host ->
  message_id_tokens U h = ([WStr (str "message-id:@" ++ host)], None).
Proof. exact message_id_ok. Qed.
Print Assumptions C78_message_id.

Theorem C78_invalid : forall U h s, header_or h (str "message-id") (FText []) (FText s) -> (forall host, ~ id_host U s host) ->
  message_id_tokens U h = ([WStr (str "message-id:invalid")], None).
Proof. exact message_id_invalid. Qed.
Print Assumptions C78_invalid.

Theorem C78_raises : forall U h x, header_or h (str "message-id") (FText []) x -> (forall s, x <> FText s) ->
  message_id_tokens U h = ([], Some TypeError).
Proof. exact message_id_err. Qed.
Print Assumptions C78_raises.

Theorem C78_host_is_determined : forall U s host host', sane U -> id_host U s host -> id_host U s host' -> host = host'.
Proof. exact id_host_det. Qed.
Print Assumptions C78_host_is_determined.

(** Cases *)
Example C78_case_1 : header_or mail_headers (str "message-id") (FText []) (FText (str "<1.2@mail.b.org>")) /\
  id_host ascii (str "<1.2@mail.b.org>") (str "mail.b.org").
Proof. exact message_id_hypotheses. Qed.

Example C78_case_2 : message_id_tokens ascii mail_headers = ([WStr (str "message-id:@mail.b.org")], None) /\
  message_id_tokens ascii [] = ([WStr (str "message-id:invalid")], None) /\
  message_id_tokens ascii [(str "Message-ID", HText (str "<a> <b@c d>x"))] = ([WStr (str "message-id:@c d")], None).
Proof. exact message_id_case. Qed.

(** ** C79 *)
Theorem C79_recipients : forall h field vs ss, lower field = field -> values field h vs -> Forall2 text_value vs ss ->
  (ss = [] -> recipient_tokens h field = ([], None)) /\
  (ss <> [] -> exists k, nearest_log2 (length ss + commas (mjoin ss)) k /\
     recipient_tokens h field = ([WStr (field ++ str ":2**" ++ digits k)], None)).
Proof. exact recipient_ok. Qed.
Print Assumptions C79_recipients.

Theorem C79_recipients_raise : forall h field vs, lower field = field -> values field h vs ->
  Exists (fun v => forall s, ~ text_value v s) vs -> recipient_tokens h field = ([], Some AttributeError).
Proof. exact recipient_err. Qed.
Print Assumptions C79_recipients_raise.

Theorem C79_logarithm_is_determined : forall n k k', nearest_log2 n k -> nearest_log2 n k' -> k = k'.
Proof. exact nearest_log2_unique. Qed.
Print Assumptions C79_logarithm_is_determined.

Theorem C79_mailer : forall U h s, header_or h (str "x-mailer") (FText (str "none")) (FText s) ->
  exists t, mailer_text U s t /\ mailer_tokens U h = ([WStr (str "x-mailer:" ++ t)], None).
Proof. exact mailer_ok. Qed.
Print Assumptions C79_mailer.

Theorem C79_mailer_raises : forall U h x, header_or h (str "x-mailer") (FText (str "none")) x -> (forall s, x <> FText s) ->
  mailer_tokens U h = ([], Some AttributeError).
Proof. exact mailer_err. Qed.
Print Assumptions C79_mailer_raises.

(** Cases *)
Example C79_case_1 : recipient_tokens mail_headers (str "to") = ([WStr (str "to:2**2")], None) /\
  recipient_tokens [(str "To", HText [])] (str "to") = ([WStr (str "to:2**0")], None) /\ nearest_log2 3 2 /\ nearest_log2 1 0.
Proof. exact recipient_case. Qed.

Example C79_case_2 : mailer_tokens ascii [(str "X-Mailer", HText (str "The  Bat! "))] = ([WStr (str "x-mailer:the bat!")], None) /\
  mailer_tokens ascii [] = ([WStr (str "x-mailer:none")], None).
Proof. exact mailer_case. Qed.

(** ** C80 *)
Theorem C80_summaries : forall U E h addrs vt vc, values (str "to") h vt -> values (str "cc") h vc ->
  getaddresses E (fetch <$> (vt ++ vc)) = Ok addrs ->
  (forall s, exists ts, summary_tokens U E h true s = (ts ++ (summary_tokens U E h false s).1, (summary_tokens U E h false s).2) /\
     affix_summary (str "pfxlen:") 3 ((fun na => u_lower U na.2) <$> addrs) ts) /\
  (exists ts, summary_tokens U E h false true = (ts, None) /\
     affix_summary (str "sfxlen:") 5 ((fun na => u_lower U (reverse na.2)) <$> addrs) ts) /\
  summary_tokens U E h false false = ([], None).
Proof. exact summary_ok. Qed.
Print Assumptions C80_summaries.

Theorem C80_order_of_addresses : forall tag limit l l' ts ts', l ≡ₚ l' -> affix_summary tag limit l ts -> affix_summary tag limit l' ts' -> ts = ts'.
Proof. exact affix_det. Qed.
Print Assumptions C80_order_of_addresses.

Theorem C80_parser_raises : forall U E h e vt vc p s, values (str "to") h vt -> values (str "cc") h vc ->
  getaddresses E (fetch <$> (vt ++ vc)) = Err e -> p = true \/ s = true -> summary_tokens U E h p s = ([], Some e).
Proof. exact summary_err. Qed.
Print Assumptions C80_parser_raises.

(** Cases *)
Example C80_case :
  summary_tokens ascii plain mail_headers true true = ([WStr (str "pfxlen:0"); WStr (str "sfxlen:1")], None) /\
  affix_tokens (str "pfxlen:") 3 (replicate 6 (str "itinera")) = [WStr (str "pfxlen:big")].
Proof. exact summary_case. Qed.

(** ** C81 *)
Theorem C81_received : forall U v s, text_value v s -> exists l, received_tokens U (fetch v) = ((fun t => WStr (str "received:" ++ t)) <$> l, None) /\
  received_list U s l.
Proof. exact received_ok. Qed.
Print Assumptions C81_received.

Theorem C81_raises : forall U v, (forall s, ~ text_value v s) -> received_tokens U (fetch v) = ([], Some AttributeError).
Proof. exact received_err. Qed.
Print Assumptions C81_raises.

Theorem C81_received_is_determined : forall U s ts ts', sane U -> received_list U s ts -> received_list U s ts' -> ts = ts'.
Proof. exact received_list_det. Qed.
Print Assumptions C81_received_is_determined.

Theorem C81_only_dotted_addresses_refuted : ~ forall U w ip, sane U -> bracketed U w ip -> NetSpec.dots ip = 3%nat.
Proof. exact only_addresses. Qed.
Print Assumptions C81_only_dotted_addresses_refuted.

(** Cases *)
Example C81_case : gfor (received_tokens ascii) (hget_all mail_headers (str "received")) =
  ((fun t => WStr (str "received:" ++ t)) <$>
   [str "(may be forged)"; str "org"; str "b.org"; str "mail.b.org"; str "10"; str "10.1"; str "10.1.2"; str "10.1.2.3"], None) /\
  received_tokens ascii (FText (str "(1234)")) = ((fun t => WStr (str "received:" ++ t)) <$> [str "1234"; str "1234"; str "1234"; str "1234"], None).
Proof. exact received_case. Qed.

(** ** C82 *)
Theorem C82_only_bytes : forall U E basic only o a2b parts h texts vs e, tokenizer_call U E basic only o a2b parts h texts = (vs, e) -> Forall (fun v => exists b, v = WBytes b) vs.
Proof. exact call_bytes. Qed.
Print Assumptions C82_only_bytes.

Theorem C82_headers_raise : forall U E basic only o a2b parts h texts texts', (tokenize_headers U E o parts h).2 <> None ->
  tokenizer_call U E basic only o a2b parts h texts = tokenizer_call U E basic only o a2b parts h texts' /\
  (tokenizer_call U E basic only o a2b parts h texts).2 <> None.
Proof. exact call_headers_raise. Qed.
Print Assumptions C82_headers_raise.

Theorem C82_body_raises : forall U E basic only o a2b parts h texts, (tokenize_body a2b texts).2 <> None ->
  (tokenizer_call U E basic only o a2b parts h texts).2 <> None.
Proof. exact call_body_raises. Qed.
Print Assumptions C82_body_raises.

Theorem C82_tokens : forall U E basic only o a2b parts h texts hts bts bs, tokenize_headers U E o parts h = (hts, None) -> tokenize_body a2b texts = (bts, None) ->
  Forall2 (fun w b => (exists s, w = WStr s /\ utf8 s = Ok b) \/ w = WBytes b) (hts ++ bts) bs ->
  tokenizer_call U E basic only o a2b parts h texts = (WBytes <$> bs, None).
Proof. exact call_ok. Qed.
Print Assumptions C82_tokens.

Theorem C82_long_subject : forall U E basic only o a2b parts h texts v s a w b, first_is h (str "subject") v -> text_value v s -> decode_header E (FText s) = Ok [(WStr s, None)] ->
  s = a ++ w ++ b -> Forall (subject_word_char U) w -> 13%N ∉ w -> 12 < length w ->
  (tokenizer_call U E basic only o a2b parts h texts).2 <> None.
Proof. exact long_subject_raises. Qed.
Print Assumptions C82_long_subject.

Theorem C82_long_subject_is_counted : forall (A : num) St (bk : backend St) it U E basic only o a2b parts h texts v s a w b is_spam (ob : obj A St), o_bigrams ob <> None ->
  first_is h (str "subject") v -> text_value v s -> decode_header E (FText s) = Ok [(WStr s, None)] ->
  s = a ++ w ++ b -> Forall (subject_word_char U) w -> 13%N ∉ w -> (12 < length w)%nat ->
  exists ob' e, learn_gen bk it (tokenizer_call U E basic only o a2b parts h texts) is_spam ob = (ob', Err e) /\
    o_nspam ob' = (o_nspam ob + if is_spam then 1 else 0)%Z /\ o_nham ob' = (o_nham ob + if is_spam then 0 else 1)%Z /\
    o_store ob' = o_store ob.
Proof. exact @long_subject_counts. Qed.
Print Assumptions C82_long_subject_is_counted.

(** Cases *)
Example C82_case_1 : (tokenizer_call ascii plain false false default_opts (fun _ => Err ValueError) [note] mail_headers [PBytes (str "hello")]).2 = None /\
  last (tokenizer_call ascii plain true true default_opts (fun _ => Err ValueError) [note] mail_headers [PBytes (str "hello")]).1 = Some (WBytes (str "hello")).
Proof. exact call_case. Qed.

Example C82_case_2 : (tokenizer_call ascii plain false false default_opts (fun _ => Err ValueError) [note] congratulations [PBytes (str "hello")]).2 = Some TypeError.
Proof. exact call_raises_case. Qed.
