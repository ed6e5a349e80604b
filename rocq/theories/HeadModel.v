(** * Model of the header tokenizing of tokenizer.py and strippers.py
    Simplifications: what the email package returns (the parts of the message,
    their parameters and file names, decoded headers, parsed addresses) is input;
    the Unicode tables behind str.lower, \w, \s and \d are parameters; the names
    of headers are ASCII.  BASIC_HEADER_TOKENIZE, X_SEARCH_FOR_HABEAS_HEADERS and
    X_MINE_NNTP_HEADERS are False as in the module (mine_nntp is in NetModel.v). *)
From Coq Require Import String.
From Verif Require Import Py Regex StripModel CdbModel MessageModel NetModel TokenModel.
Local Open Scope N_scope.

(** The Unicode tables: str.lower (strippers.py:115), \w, \s and \d in text
    patterns (tokenizer.py:842, 848, 852, 859, 860) *)
Record unicode := Unicode {
  u_lower : codes -> codes;
  u_word : N -> bool;
  u_space : N -> bool;
  u_digit : N -> bool
}.

(** The email package: email.header.decode_header (tokenizer.py:1224, 1259) and
    email.utils.getaddresses (tokenizer.py:1256, 1295, 1322) *)
Record mailpkg := Mailpkg {
  decode_header : fetched -> res (list (pyword * option codes));
  getaddresses : list fetched -> res (list (codes * codes))
}.

(** The module options COUNT_ALL_HEADER_LINES, RECORD_HEADER_ABSENCE,
    SUMMARIZE_EMAIL_PREFIXES, SUMMARIZE_EMAIL_SUFFIXES and MINE_RECEIVED_HEADERS
    (tokenizer.py:117, 123, 161, 164, 139) *)
Record topts := Topts {
  count_all : bool;
  record_absence : bool;
  sum_prefixes : bool;
  sum_suffixes : bool;
  mine_received : bool
}.
(** Their values in the module, tokenizer.py:117, 123, 139, 161, 164 *)
Definition default_opts : topts := Topts false false false false false.

(** A parameter of a header: absent, text, or the triple that stands for an
    RFC 2231 encoded value, strippers.py:113 *)
Inductive param := PAbsent | PText (s : codes) | PTriple.

(** What crack_content_xyz asks a part for, strippers.py:110-141.  [pt_charsets]
    is None when get_charsets raises UnicodeEncodeError. *)
Record mpart := Mpart {
  pt_type : codes;
  pt_param : param;
  pt_charsets : option (list (option codes));
  pt_disposition : fetched;
  pt_filename : option codes
}.

(** [p + t for t in g] on texts, strippers.py:135 and tokenizer.py:1235 *)
Fixpoint label (p : codes) (ts : list pyword) (e : option exn) : gen :=
  match ts with
  | [] => ([], e)
  | WStr s :: ts => gapp (gok [WStr (p ++ s)]) (label p ts e)
  | _ :: _ => gerr TypeError
  end.

Section headers.
  Context (U : unicode) (E : mailpkg).

  (** strippers.py:131-141: file name tokens; TypeError is caught *)
  Definition filename_tokens (fname : option codes) : gen :=
    match fname with
    | None => gok []
    | Some f =>
        let '(ts, e) := crack_filename (WStr f) in
        match label (str "filename:") ts e with
        | (ts, Some TypeError) => gok (ts ++ [WStr (str "filename:<bogus>")])
        | g => g
        end
    end.

  (** strippers.py:110-141, crack_content_xyz *)
  Definition crack_content_xyz (x : mpart) : gen :=
    gapp (gok [WStr (str "content-type:" ++ pt_type x)])
    (gapp (match pt_param x with
           | PAbsent => gok []
           | PText s => gok [WStr (str "content-type/type:" ++ u_lower U s)]
           | PTriple => gerr AttributeError
           end)
    (gapp (match pt_charsets x with
           | None => gok [WStr (str "charset:invalid_unicode")]
           | Some cs => gok (flat_map (fun c => match c with
                                                | None => []
                                                | Some c => [WStr (str "charset:" ++ u_lower U c)]
                                                end) cs)
           end)
    (gapp (match pt_disposition x with
           | FNone => gok []
           | FText s => gok [WStr (str "content-disposition:" ++ u_lower U s)]
           | FHeader _ => gerr AttributeError
           end)
          (filename_tokens (pt_filename x))))).

  (** [msg.get(name, d)], tokenizer.py:1222, 1361, 1392 *)
  Fixpoint hget_default (h : headers) (name : codes) (d : fetched) : fetched :=
    match h with
    | [] => d
    | (k, v) :: h => if same_name k name then fetch v else hget_default h name d
    end.
  (** [msg.get_all(name, [])], tokenizer.py:1250, 1294, 1350, 1367 *)
  Definition hget_all (h : headers) (name : codes) : list fetched :=
    (fun kv => fetch kv.2) <$> filter (fun kv => same_name kv.1 name = true) h.

  (** tokenizer.py:859, subject_word_re *)
  Definition subject_char (c : N) : bool :=
    u_word U c || ((128 <=? c) && (c <=? 255)) || (c =? 36) || (c =? 46) || (c =? 37).
  (** tokenizer.py:859, subject_word_re *)
  Definition subject_word_re : regex := rplus (RChr subject_char).
  (** tokenizer.py:860, punctuation_run_re *)
  Definition punctuation_run_re : regex := rplus (RChr (fun c => negb (u_word U c))).

  (** tokenizer.py:1232, [x.replace('\r', ' ')] *)
  Definition no_cr (x : codes) : codes := (fun c => if c =? 13 then 32 else c) <$> x.

  (** tokenizer.py:1227-1237: one piece of the decoded subject *)
  Definition subject_chunk (xc : pyword * option codes) : gen :=
    let '(x, charset) := xc in
    gapp (match charset with
          | None => gok []
          | Some c => gok [WStr (str "subjectcharset:" ++ c)]
          end)
      (match x with
       | WStr s =>
           let s := no_cr s in
           gapp (gfor (fun w => let '(ts, e) := tokenize_word (WStr w) in label (str "subject:") ts e)
                   (findall subject_word_re s))
                (gok ((fun w => WStr (str "subject:" ++ w)) <$> findall punctuation_run_re s))
       | WBytes _ => gerr TypeError
       | WNone => gerr AttributeError
       end).

  (** tokenizer.py:1223-1226, 1258-1262: ValueError stands for any of
      the three exceptions caught there *)
  Definition decoded (x : fetched) : res (list (pyword * option codes)) :=
    match decode_header E x with
    | Err ValueError => Ok [(match x with FText s => WStr s | _ => WNone end, Some (str "invalid"))]
    | r => r
    end.

  (** tokenizer.py:1222-1237 *)
  Definition subject_tokens (h : headers) : gen :=
    match decoded (hget_default h (str "subject") (FText [])) with
    | Err e => gerr e
    | Ok chunks => gfor subject_chunk chunks
    end.

  (** tokenizer.py:151 *)
  Definition ADDRESS_HEADERS : list codes :=
    [str "from"; str "to"; str "cc"; str "sender"; str "reply-to"].

  (** round(log2(n)) for n > 0, tokenizer.py:1049-1050, 1276-1277, 1353: the nearest
      integer, computed here without rounding errors (two square roots of
      powers of two are never integers) *)
  Definition round_log2 (n : nat) : N := (N.log2 (N.of_nat n * N.of_nat n) + 1) / 2.

  (** tokenizer.py:1263-1266: one piece of a real name *)
  Definition name_chunk (field : codes) (nc : pyword * option codes) : gen :=
    let '(name, charset) := nc in
    gapp (match name with
          | WStr s => gok [WStr (field ++ str ":name:" ++ u_lower U s)]
          | WBytes b => gok [WStr (field ++ str ":name:" ++ repr_bytes (blower b))]
          | WNone => gerr AttributeError
          end)
         (match charset with
          | None => gok []
          | Some c => gok [WStr (field ++ str ":charset:" ++ c)]
          end).

  (** tokenizer.py:1256-1273: one address *)
  Definition address_tokens (field : codes) (na : codes * codes) : gen :=
    let '(name, addr) := na in
    gapp (match name with
          | [] => gok []
          | _ => match decoded (FText name) with
                 | Err e => gerr e
                 | Ok chunks => gfor (name_chunk field) chunks
                 end
          end)
         (match addr with
          | [] => gok [WStr (field ++ str ":addr:none")]
          | _ => gok ((fun w => WStr (field ++ str ":addr:" ++ w)) <$> split_on (N.eqb 64) (u_lower U addr))
          end).

  (** The number of addresses without real name, tokenizer.py:1255, 1268 *)
  Definition nonames (addrs : list (codes * codes)) : nat :=
    length (filter (fun na => na.1 = []) addrs).

  (** tokenizer.py:1249-1277: one address header *)
  Definition field_tokens (h : headers) (field : codes) : gen :=
    match hget_all h field with
    | [] => gok [WStr (field ++ str ":none")]
    | l => match getaddresses E l with
           | Err e => gerr e
           | Ok addrs =>
               gapp (gfor (address_tokens field) addrs)
                    (match nonames addrs with
                     | O => gok []
                     | n => gok [WStr (field ++ str ":no real name:2**" ++ digits (round_log2 n))]
                     end)
           end
    end.

  (** os.path.commonprefix of two texts, tokenizer.py:1301, 1333 *)
  Fixpoint common (a b : codes) : codes :=
    match a, b with
    | x :: a, y :: b => if x =? y then x :: common a b else []
    | _, _ => []
    end.
  (** os.path.commonprefix of a non-empty list, tokenizer.py:1301, 1333 *)
  Definition commonprefix (l : list codes) : codes :=
    match l with [] => [] | a :: l => foldl common a l end.

  (** tokenizer.py:1298-1312 and 1330-1343: [limit] is 3 for prefixes, 5 for suffixes *)
  Definition affix_tokens (tag : codes) (limit : nat) (l : list codes) : list pyword :=
    if (1 <? length l)%nat then
      match commonprefix l with
      | [] => []
      | pfx =>
          let score := (length pfx * length l / 10)%nat in
          [WStr (tag ++ if (limit <? score)%nat then str "big" else digits (N.of_nat score))]
      end
    else [].

  (** tokenizer.py:1292-1296 and 1319-1328 *)
  Definition summary_tokens (h : headers) (prefixes suffixes : bool) : gen :=
    let recipients := hget_all h (str "to") ++ hget_all h (str "cc") in
    gapp (if prefixes then
            match getaddresses E recipients with
            | Err e => gerr e
            | Ok addrs => gok (affix_tokens (str "pfxlen:") 3 ((fun na => u_lower U na.2) <$> addrs))
            end
          else gok [])
         (if suffixes then
            match getaddresses E recipients with
            | Err e => gerr e
            | Ok addrs => gok (affix_tokens (str "sfxlen:") 5 ((fun na => u_lower U (reverse na.2)) <$> addrs))
            end
          else gok []).

  (** tokenizer.py:1349-1351: the number of addresses in a recipient header *)
  Fixpoint count_addresses (l : list fetched) : res nat :=
    match l with
    | [] => Ok O
    | FText s :: l => match count_addresses l with
                      | Ok n => Ok (length (split_on (N.eqb 44) s) + n)%nat
                      | Err e => Err e
                      end
    | _ :: _ => Err AttributeError
    end.
  (** tokenizer.py:1348-1353 *)
  Definition recipient_tokens (h : headers) (field : codes) : gen :=
    match count_addresses (hget_all h field) with
    | Err e => gerr e
    | Ok O => gok []
    | Ok n => gok [WStr (field ++ str ":2**" ++ digits (round_log2 n))]
    end.

  (** [text.split()] of a text, tokenizer.py:1362, 1371 *)
  Fixpoint runs_from (p : N -> bool) (w : codes) (text : codes) : list codes :=
    let done := match w with [] => [] | _ => [w] end in
    match text with
    | [] => done
    | c :: text => if p c then runs_from p (w ++ [c]) text else done ++ runs_from p [] text
    end.
  (** [' '.join(words)], tokenizer.py:1362, 1371 *)
  Fixpoint join_blank (l : list codes) : codes :=
    match l with
    | [] => []
    | [w] => w
    | w :: l => w ++ str " " ++ join_blank l
    end.
  (** [' '.join(x.split())], tokenizer.py:1362, 1371 *)
  Definition normalized (x : codes) : codes := join_blank (runs_from (fun c => negb (u_space U c)) [] x).

  (** tokenizer.py:1359-1362 *)
  Definition mailer_tokens (h : headers) : gen :=
    match hget_default h (str "x-mailer") (FText (str "none")) with
    | FText s => gok [WStr (str "x-mailer:" ++ normalized (u_lower U s))]
    | _ => gerr AttributeError
    end.

  (** a-z, tokenizer.py:842, 1054 *)
  Definition is_az (c : N) : bool := (97 <=? c) && (c <=? 122).
  (** tokenizer.py:1054, received_complaints_re *)
  Definition received_complaints_re : regex :=
    RSeq (ch 40) (RSeq (rplus (RChr is_az))
      (RSeq (rplus (RSeq (rplus (RChr (u_space U))) (rplus (RChr is_az)))) (ch 41))).
  (** a-z0-9._-, tokenizer.py:842 *)
  Definition is_hostchar (c : N) : bool := is_az c || is_num c || (c =? 46) || (c =? 95) || (c =? 45).
  (** tokenizer.py:842, received_host_re *)
  Definition received_host_re : regex :=
    RSeq (rlit (str "from ")) (RSeq (RGroup 1 (RSeq (rplus (RChr is_hostchar)) (RChr is_az)))
      (RChr (fun c => (c =? 41) || u_space U c))).
  (** one to three digits and perhaps a dot, tokenizer.py:848 *)
  Definition octet_re : regex :=
    RSeq (RSeq (RChr (u_digit U)) (rupto 2 (RChr (u_digit U)))) (ropt (ch 46)).
  (** tokenizer.py:848, received_ip_re *)
  Definition received_ip_re : regex :=
    RSeq (RChr (fun c => (c =? 91) || (c =? 40)))
      (RSeq (RGroup 1 (RSeq octet_re (RSeq octet_re (RSeq octet_re octet_re))))
        (RChr (fun c => (c =? 93) || (c =? 41)))).

  (** tokenizer.py:1376-1381 *)
  Definition received_search (r : regex) (breakdown : codes -> list codes) (header : codes) : list pyword :=
    match rsearch r (start header) with
    | None => []
    | Some (_, _, g) => (fun t => WStr (str "received:" ++ t)) <$> breakdown (the_group 1 g)
    end.
  (** tokenizer.py:1367-1381: one Received header *)
  Definition received_tokens (x : fetched) : gen :=
    match x with
    | FText s =>
        let header := u_lower U (normalized s) in
        gok (((fun c => WStr (str "received:" ++ c)) <$> findall received_complaints_re header)
             ++ received_search received_host_re breakdown_host header
             ++ received_search received_ip_re breakdown_ipaddr header)
    | _ => gerr AttributeError
    end.

  (** tokenizer.py:852, message_id_re *)
  Definition message_id_re : regex :=
    RSeq (RStar (RChr (u_space U))) (RSeq (ch 60)
      (RSeq (rplus (RChr (fun c => negb (c =? 64)))) (RSeq (ch 64)
        (RSeq (RGroup 1 (rplus (RChr (fun c => negb (c =? 62)))))
          (RSeq (ch 62) (RStar (RChr (u_space U)))))))).
  (** tokenizer.py:1392-1399 *)
  Definition message_id_tokens (h : headers) : gen :=
    match hget_default h (str "message-id") (FText []) with
    | FText s => match rmatch1 message_id_re (start s) with
                 | Some (_, g) => gok [WStr (str "message-id:@" ++ the_group 1 g)]
                 | None => gok [WStr (str "message-id:invalid")]
                 end
    | _ => gerr TypeError
    end.

  (** tokenizer.py:128-134 *)
  Definition SAFE_HEADERS : list codes :=
    [str "abuse-reports-to"; str "date"; str "errors-to"; str "from"; str "importance"; str "in-reply-to";
     str "message-id"; str "mime-version"; str "organization"; str "received"; str "reply-to"; str "return-path";
     str "subject"; str "to"; str "user-agent"; str "x-abuse-info"; str "x-complaints-to"; str "x-face"].
  (** [x.lower() in safe_headers], tokenizer.py:1416, 1422 *)
  Definition is_safe (x : codes) : bool := bool_decide (lower x ∈ SAFE_HEADERS).
  (** [x2n[x] = x2n.get(x, 0) + 1], tokenizer.py:1408, 1417: a dictionary keeps the
      order of insertion *)
  Fixpoint bump (x2n : list (codes * nat)) (x : codes) : list (codes * nat) :=
    match x2n with
    | [] => [(x, 1%nat)]
    | (y, n) :: x2n => if bool_decide (y = x) then (y, Datatypes.S n) :: x2n else (y, n) :: bump x2n x
    end.
  (** tokenizer.py:1405-1423 *)
  Definition count_tokens (o : topts) (h : headers) : list pyword :=
    let keys := h.*1 in
    let x2n := foldl bump [] (if count_all o then keys else filter (fun x => is_safe x = true) keys) in
    ((fun xn => WStr (str "header:" ++ xn.1 ++ str ":" ++ digits (N.of_nat xn.2))) <$> x2n)
    ++ (if record_absence o
        then (fun xn => WStr (str "noheader:" ++ xn.1)) <$> filter (fun xn => is_safe xn.1 = false) x2n
        else []).

  (** tokenizer.py:1135-1423, tokenize_headers: [parts] are what msg.walk() yields *)
  Definition tokenize_headers (o : topts) (parts : list mpart) (h : headers) : gen :=
    gapp (gfor crack_content_xyz parts)
    (gapp (subject_tokens h)
    (gapp (gfor (field_tokens h) ADDRESS_HEADERS)
    (gapp (summary_tokens h (sum_prefixes o) (sum_suffixes o))
    (gapp (gfor (recipient_tokens h) [str "to"; str "cc"])
    (gapp (mailer_tokens h)
    (gapp (if mine_received o then gfor received_tokens (hget_all h (str "received")) else gok [])
    (gapp (message_id_tokens h)
          (gok (count_tokens o h))))))))).

  (** tokenizer.py:1127-1133, Tokenizer.__call__: its two options are not handed on *)
  Definition tokenizer_call (basic basic_only : bool) (o : topts) (a2b : codes -> res codes)
      (parts : list mpart) (h : headers) (texts : list payload) : gen :=
    let '(ts, e) := gapp (tokenize_headers o parts h) (tokenize_body a2b texts) in
    convert_to_bytes ts e.
End headers.
