(** * Cases that meet the hypotheses of the theorems about headers *)
From Coq Require Import String.
From Verif Require Import Py Regex RegexSpec RegexProofs StripModel StripSpec StripProofs NumModel ClassifierModel MessageModel MessageSpec
  TokenModel TokenSpec TokenProofs RaiseModel RaiseProofs HeadModel HeadSpec HeadProofs HeadFieldProofs HeadScanProofs HeadCallProofs.
Local Open Scope N_scope.

(** Tables that know ASCII only *)
Definition ascii : unicode :=
  Unicode lower is_word (fun c => is_space c || ((28 <=? c) && (c <=? 31))) is_num.
Lemma ascii_sane : sane ascii.
Proof.
  split_and!; intros c _; simpl.
  - apply is_word_spec.
  - by rewrite orb_true_iff, is_space_spec, andb_true_iff, !N.leb_le.
  - unfold is_num. by rewrite andb_true_iff, !N.leb_le.
Qed.

(** An email package for headers without encoded words and addresses without brackets *)
Definition plain : mailpkg :=
  Mailpkg (fun x => match x with FText s => Ok [(WStr s, None)] | FHeader s => Ok [(WBytes s, Some (str "unknown-8bit"))] | FNone => Err TypeError end)
          (fun l => Ok (flat_map (fun x => match x with FText s => (fun a => ([], a)) <$> split_on (N.eqb 44) s | _ => [] end) l)).
Definition page : mpart := Mpart (str "text/html") PAbsent (Some [Some (str "UTF-8"); None]) (FText (str "Attachment")) (Some (str "a/b.c")).
Definition note : mpart := Mpart (str "text/plain") PAbsent (Some [None]) FNone None.
Definition mail_headers : headers :=
  [(str "From", HText (str "a@b.org")); (str "To", HText (str "c@d.org,ce@d.org,cf@d.org")); (str "SUBJECT", HText (str "Now only $29.95!"));
   (str "Message-Id", HText (str "<1.2@mail.b.org>")); (str "Received", HText (str "from mail.b.org (mail.b.org [10.1.2.3]) (may be forged)"));
   (str "received", HText (str "from x")); (str "X-Other", HText (str "1"))].

(** The parts *)
Example part_case : crack_content_xyz ascii page =
  (WStr <$> [str "content-type:text/html"; str "charset:utf-8"; str "content-disposition:attachment";
             str "filename:fname:a/b.c"; str "filename:<bogus>"], None).
Proof. by vm_compute. Qed.
Example part_raises_case : (crack_content_xyz ascii (Mpart (str "a/b") PTriple None FNone None)).2 = Some AttributeError /\
  (crack_content_xyz ascii (Mpart (str "a/b") PAbsent None (FHeader []) None)).2 = Some AttributeError.
Proof. by vm_compute. Qed.
Lemma ordinary_file_name : ~ forall U x f ts e, pt_filename x = Some f -> crack_content_xyz U x = (ts, e) -> e = None ->
  WStr (str "filename:<bogus>") ∉ ts.
Proof.
  intros H. refine (H ascii page (str "a/b.c") _ _ eq_refl part_case eq_refl _). apply (bool_decide_unpack _). by vm_compute.
Qed.

(** The subject *)
Example subject_case : subject_tokens ascii plain mail_headers =
  (WStr <$> [str "subject:Now"; str "subject:only"; str "subject:$29.95"; str "subject: "; str "subject: $"; str "subject:."; str "subject:!"], None).
Proof. by vm_compute. Qed.
Example subject_hypotheses : header_or mail_headers (str "subject") (FText []) (FText (str "Now only $29.95!")) /\
  decode_header plain (FText (str "Now only $29.95!")) = Ok [(WStr (str "Now only $29.95!"), None)].
Proof. split; [|done]. by apply (hget_default_or _ (str "subject")). Qed.
Definition congratulations : headers := [(str "Subject", HText (str "Congratulations!"))].
Lemma subject_hypotheses_long : first_is congratulations (str "subject") (HText (str "Congratulations!")) /\
  text_value (HText (str "Congratulations!")) (str "Congratulations!") /\
  str "Congratulations!" = [] ++ str "Congratulations" ++ str "!" /\
  Forall (subject_word_char ascii) (str "Congratulations") /\ 13 ∉ str "Congratulations" /\ (12 < length (str "Congratulations"))%nat.
Proof.
  split_and!.
  - exists [], (str "Subject"), []. split_and!; [done|done|constructor].
  - split; [done|]. apply (bool_decide_unpack _). by vm_compute.
  - done.
  - apply (forallb_Forall _ _ (subject_char_spec ascii)). by vm_compute.
  - apply (bool_decide_unpack _). by vm_compute.
  - apply (bool_decide_unpack _). by vm_compute.
Qed.
Lemma not_every_subject : ~ forall U E h, sane U -> exists ts, subject_tokens U E h = (ts, None).
Proof. intros H. destruct (H ascii plain congratulations ascii_sane) as [ts E]. by vm_compute in E. Qed.

(** Addresses *)
Example field_case : field_tokens ascii plain mail_headers (str "to") =
  (WStr <$> [str "to:addr:c"; str "to:addr:d.org"; str "to:addr:ce"; str "to:addr:d.org"; str "to:addr:cf"; str "to:addr:d.org";
             str "to:no real name:2**2"], None) /\
  field_tokens ascii plain mail_headers (str "sender") = ([WStr (str "sender:none")], None).
Proof. by vm_compute. Qed.
Example field_hypotheses : values (str "from") mail_headers [HText (str "a@b.org")] /\
  getaddresses plain [FText (str "a@b.org")] = Ok [([], str "a@b.org")] /\ Forall2 (name_pieces plain) [([], str "a@b.org")] [[]].
Proof.
  split_and!; [|done|constructor; [by left|constructor]].
  unfold mail_headers. apply values_take; [done|]. repeat (apply values_skip; [done|]). constructor.
Qed.

(** Recipients and the summaries of their addresses *)
Example recipient_case : recipient_tokens mail_headers (str "to") = ([WStr (str "to:2**2")], None) /\
  recipient_tokens [(str "To", HText [])] (str "to") = ([WStr (str "to:2**0")], None) /\ nearest_log2 3 2 /\ nearest_log2 1 0.
Proof. split_and!; [by vm_compute..|]. by vm_compute. Qed.
Example summary_case :
  summary_tokens ascii plain mail_headers true true = ([WStr (str "pfxlen:0"); WStr (str "sfxlen:1")], None) /\
  affix_tokens (str "pfxlen:") 3 (replicate 6 (str "itinera")) = [WStr (str "pfxlen:big")].
Proof. by vm_compute. Qed.
Example mailer_case : mailer_tokens ascii [(str "X-Mailer", HText (str "The  Bat! "))] = ([WStr (str "x-mailer:the bat!")], None) /\
  mailer_tokens ascii [] = ([WStr (str "x-mailer:none")], None).
Proof. by vm_compute. Qed.

(** Message ids *)
Lemma message_id_hypotheses : header_or mail_headers (str "message-id") (FText []) (FText (str "<1.2@mail.b.org>")) /\
  id_host ascii (str "<1.2@mail.b.org>") (str "mail.b.org").
Proof.
  split; [by apply (hget_default_or _ (str "message-id"))|].
  exists [], (str "1.2"), []. split_and!; [done|constructor|done|apply (bool_decide_unpack _); by vm_compute|done|apply (bool_decide_unpack _); by vm_compute].
Qed.
Example message_id_case : message_id_tokens ascii mail_headers = ([WStr (str "message-id:@mail.b.org")], None) /\
  message_id_tokens ascii [] = ([WStr (str "message-id:invalid")], None) /\
  message_id_tokens ascii [(str "Message-ID", HText (str "<a> <b@c d>x"))] = ([WStr (str "message-id:@c d")], None).
Proof. by vm_compute. Qed.

(** Received headers; a number in brackets is taken for an address *)
Example received_case : gfor (received_tokens ascii) (hget_all mail_headers (str "received")) =
  ((fun t => WStr (str "received:" ++ t)) <$>
   [str "(may be forged)"; str "org"; str "b.org"; str "mail.b.org"; str "10"; str "10.1"; str "10.1.2"; str "10.1.2.3"], None) /\
  received_tokens ascii (FText (str "(1234)")) = ((fun t => WStr (str "received:" ++ t)) <$> [str "1234"; str "1234"; str "1234"; str "1234"], None).
Proof. by vm_compute. Qed.
Lemma only_addresses : ~ forall U w ip, sane U -> bracketed U w ip -> NetSpec.dots ip = 3%nat.
Proof.
  intros H. assert (bracketed ascii (str "(1234)") (str "1234")) as HB.
  { exists 40, 41, (str "1"), (str "2"), (str "3"), (str "4"). split_and!; [done|apply (bool_decide_unpack _); by vm_compute|apply (bool_decide_unpack _); by vm_compute|done|..];
    eexists _, []; (split_and!; [by rewrite app_nil_r|simpl; lia|simpl; lia|by repeat constructor|left]). }
  apply (H ascii _ _ ascii_sane) in HB. by vm_compute in HB.
Qed.

(** Header counts: spelling matters *)
Example count_case : count_tokens default_opts mail_headers =
  WStr <$> [str "header:From:1"; str "header:To:1"; str "header:SUBJECT:1"; str "header:Message-Id:1"; str "header:Received:1"; str "header:received:1"] /\
  count_tokens (Topts true true false false false) [(str "X-Other", HNone); (str "Date", HNone); (str "X-Other", HNone)] =
  WStr <$> [str "header:X-Other:2"; str "header:Date:1"; str "noheader:X-Other"].
Proof. by vm_compute. Qed.

(** The whole call *)
Example call_case : (tokenizer_call ascii plain false false default_opts (fun _ => Err ValueError) [note] mail_headers [PBytes (str "hello")]).2 = None /\
  last (tokenizer_call ascii plain true true default_opts (fun _ => Err ValueError) [note] mail_headers [PBytes (str "hello")]).1 = Some (WBytes (str "hello")).
Proof. by vm_compute. Qed.
Example call_raises_case : (tokenizer_call ascii plain false false default_opts (fun _ => Err ValueError) [note] congratulations [PBytes (str "hello")]).2 = Some TypeError.
Proof. by vm_compute. Qed.

(** Learning what the call yields *)
Lemma long_subject_counts (A : num) St (bk : backend St) it U E basic only o a2b parts h texts v s a w b is_spam (ob : obj A St) :
  o_bigrams ob <> None ->
  first_is h (str "subject") v -> text_value v s -> decode_header E (FText s) = Ok [(WStr s, None)] ->
  s = a ++ w ++ b -> Forall (subject_word_char U) w -> 13 ∉ w -> (12 < length w)%nat ->
  exists ob' e, learn_gen bk it (tokenizer_call U E basic only o a2b parts h texts) is_spam ob = (ob', Err e) /\
    o_nspam ob' = (o_nspam ob + if is_spam then 1 else 0)%Z /\ o_nham ob' = (o_nham ob + if is_spam then 0 else 1)%Z /\
    o_store ob' = o_store ob.
Proof.
  intros Hb H1 H2 H3 H4 H5 H6 H7.
  pose proof (long_subject_raises U E basic only o a2b parts h texts v s a w b H1 H2 H3 H4 H5 H6 H7) as HR.
  destruct (tokenizer_call U E basic only o a2b parts h texts) as [ts [e|]]; [|done].
  destruct (learn_gen_raises bk it ts e is_spam ob Hb) as (ob' & K1 & K2 & K3 & K4 & _). by exists ob', e.
Qed.
