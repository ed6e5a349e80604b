(** * What tokenizing a whole message yields
    Put together from the specifications of the headers and of the body. *)
From Coq Require Import String.
From Verif Require Import Py StripSpec NetSpec TokenModel TokenSpec CdbModel MessageModel MessageSpec HeadModel HeadSpec.

Definition part_fine (x : mpart) : Prop := pt_param x <> PTriple /\ forall s, pt_disposition x <> FHeader s.
Definition part_list (U : unicode) (parts : list mpart) (ts : list pyword) : Prop :=
  Forall part_fine parts /\ ts = mjoin (part_token_list U <$> parts).

(** The pieces of the subject; a subject that cannot be decoded is one piece. *)
Definition subject_pieces (E : mailpkg) (x : fetched) (chunks : list (pyword * option codes)) : Prop :=
  decode_header E x = Ok chunks \/
  (exists s, x = FText s /\ decode_header E x = Err ValueError /\ chunks = [(WStr s, Some (str "invalid"))]).
Definition subject_list (U : unicode) (E : mailpkg) (h : headers) (ts : list pyword) : Prop :=
  exists x chunks tss, header_or h (str "subject") (FText []) x /\ subject_pieces E x chunks /\
    ~ Exists (bad_chunk U) chunks /\ Forall2 (chunk_tokens U) chunks tss /\ ts = mjoin tss.

Definition address_names : list codes := [str "from"; str "to"; str "cc"; str "sender"; str "reply-to"].
Definition field_list (U : unicode) (E : mailpkg) (h : headers) (field : codes) (ts : list pyword) : Prop :=
  (values field h [] /\ ts = [WStr (field ++ str ":none")]) \/
  (exists vs addrs pss tss nts, values field h vs /\ vs <> [] /\ getaddresses E (fetch <$> vs) = Ok addrs /\
     Forall2 (name_pieces E) addrs pss /\
     Forall2 (fun aps ts => one_address U field aps.2 aps.1.2 ts) (zip addrs pss) tss /\
     ((nameless addrs = 0 /\ nts = []) \/
      (0 < nameless addrs /\ exists k, nearest_log2 (nameless addrs) k /\
         nts = [WStr (field ++ str ":no real name:2**" ++ digits k)])) /\
     ts = mjoin tss ++ nts).

(** One of the two summaries, if it is asked for; [view] is what is compared. *)
Definition summary_list (E : mailpkg) (h : headers) (view : codes -> codes) (tag : codes) (limit : nat) (wanted : bool)
    (ts : list pyword) : Prop :=
  (wanted = false /\ ts = []) \/
  (wanted = true /\ exists vt vc addrs, values (str "to") h vt /\ values (str "cc") h vc /\
     getaddresses E (fetch <$> (vt ++ vc)) = Ok addrs /\ affix_summary tag limit ((fun na => view na.2) <$> addrs) ts).

Definition recipient_list (h : headers) (field : codes) (ts : list pyword) : Prop :=
  exists vs ss, values field h vs /\ Forall2 text_value vs ss /\
    ((ss = [] /\ ts = []) \/
     (ss <> [] /\ exists k, nearest_log2 (length ss + commas (mjoin ss)) k /\ ts = [WStr (field ++ str ":2**" ++ digits k)])).

Definition mailer_list (U : unicode) (h : headers) (ts : list pyword) : Prop :=
  exists s t, header_or h (str "x-mailer") (FText (str "none")) (FText s) /\ mailer_text U s t /\
    ts = [WStr (str "x-mailer:" ++ t)].

Definition received_headers (U : unicode) (h : headers) (wanted : bool) (ts : list pyword) : Prop :=
  (wanted = false /\ ts = []) \/
  (wanted = true /\ exists vs ss ls, values (str "received") h vs /\ Forall2 text_value vs ss /\ Forall2 (received_list U) ss ls /\
     ts = (fun t => WStr (str "received:" ++ t)) <$> mjoin ls).

Definition id_list (U : unicode) (h : headers) (ts : list pyword) : Prop :=
  exists s, header_or h (str "message-id") (FText []) (FText s) /\
    ((exists host, id_host U s host /\ ts = [WStr (str "message-id:@" ++ host)]) \/
     ((forall host, ~ id_host U s host) /\ ts = [WStr (str "message-id:invalid")])).

(** The counts, in any order *)
Definition count_list (o : topts) (h : headers) (ts : list pyword) : Prop :=
  NoDup ts /\ forall t, t ∈ ts <->
    (exists x n, (count_all o = true \/ lower x ∈ safe_names) /\ n = spelled x h /\ 0 < n /\
       t = WStr (str "header:" ++ x ++ str ":" ++ digits (N.of_nat n))) \/
    (record_absence o = true /\ count_all o = true /\
       exists x, 0 < spelled x h /\ lower x ∉ safe_names /\ t = WStr (str "noheader:" ++ x)).

(** The tokens of all headers *)
Definition header_list (U : unicode) (E : mailpkg) (o : topts) (parts : list mpart) (h : headers) (ts : list pyword) : Prop :=
  exists t1 t2 t3 t4 t5 t6 t7 t8 t9 t10,
    part_list U parts t1 /\ subject_list U E h t2 /\
    (exists tss, Forall2 (field_list U E h) address_names tss /\ t3 = mjoin tss) /\
    summary_list E h (u_lower U) (str "pfxlen:") 3 (sum_prefixes o) t4 /\
    summary_list E h (fun a => u_lower U (reverse a)) (str "sfxlen:") 5 (sum_suffixes o) t5 /\
    (exists tss, Forall2 (recipient_list h) [str "to"; str "cc"] tss /\ t6 = mjoin tss) /\
    mailer_list U h t7 /\ received_headers U h (mine_received o) t8 /\ id_list U h t9 /\ count_list o h t10 /\
    ts = t1 ++ t2 ++ t3 ++ t4 ++ t5 ++ t6 ++ t7 ++ t8 ++ t9 ++ t10.

(** Text is encoded, bytes stay. *)
Definition encoded (w : pyword) (b : codes) : Prop := (exists s, w = WStr s /\ utf8 s = Ok b) \/ w = WBytes b.

(** The byte strings a message yields *)
Definition message_list (U : unicode) (E : mailpkg) (o : topts) (parts : list mpart) (h : headers) (texts : list payload)
    (bs : list codes) : Prop :=
  exists hts tss, header_list U E o parts h hts /\ Forall (fun p => ~ part_raises p) texts /\ Forall2 part_tokens texts tss /\
    Forall2 encoded (hts ++ mjoin tss) bs.

(** decode_header returns texts and byte strings. *)
Definition no_none (E : mailpkg) : Prop :=
  forall x chunks, decode_header E x = Ok chunks -> Forall (fun xc => xc.1 <> WNone) chunks.
