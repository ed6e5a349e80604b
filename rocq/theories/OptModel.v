(** * Model of the optional parts of tokenizer.py and strippers.py
    Those that the constants of the two modules switch off, except CRACK_IMAGES,
    X_LOOKUP_IP and X_MINE_NNTP_HEADERS.  The options are values here; in the code they are
    module constants, read when a message is tokenized (FANCY_URL_RECOGNITION:
    when the module tokenizer is imported, tokenizer.py:1062). *)
From Coq Require Import String.
From Verif Require Import Py Regex StripModel MessageModel TokenModel HeadModel.
Local Open Scope N_scope.

(** CHECK_OCTETS, IMAGE_SIZE, X_SHORT_RUNS, REPLACE_NONASCII_CHARS
    (tokenizer.py:53, 74, 63, 191), FANCY_URL_RECOGNITION, X_PICK_APART_URLS
    (strippers.py:37, 41) *)
Record bopts := Bopts {
  check_octets : bool;
  image_size : bool;
  short_runs : bool;
  replace_nonascii : bool;
  fancy_urls : bool;
  pick_apart : bool
}.
(** Their values in the modules, tokenizer.py:53, 74, 63, 191, strippers.py:37, 41 *)
Definition default_bopts : bopts := Bopts false false false false false false.

(** ** Headers *)

(** tokenizer.py:49 and 1124-1125, basic_skip: a single expression *)
Definition basic_skip : list regex :=
  [RSeq (rlit (str "received date x-")) (RStar (RChr (fun c => negb (c =? 10))))].
(** tokenizer.py:1170-1172 *)
Definition is_skipped (k : codes) : bool :=
  existsb (fun rx => match rmatch1 rx (start k) with Some _ => true | None => false end) basic_skip.
(** tokenizer.py:1168-1177: one header.  A value that is not text cannot be
    searched. *)
Definition basic_header (U : unicode) (kv : codes * hval) : gen :=
  let k := lower kv.1 in
  if is_skipped k then gok []
  else match fetch kv.2 with
       | FText v => gfor (fun w => let '(ts, e) := tokenize_word (WStr w) in label (k ++ str ":") ts e)
                      (findall (subject_word_re U) v)
       | _ => gerr TypeError
       end.

(** tokenizer.py:1183-1193, habeas_headers *)
Definition habeas_headers : list (codes * codes) :=
  [(str "X-Habeas-SWE-1", str "winter into spring");
   (str "X-Habeas-SWE-2", str "brightly anticipated");
   (str "X-Habeas-SWE-3", str "like Habeas SWE (tm)");
   (str "X-Habeas-SWE-4", str "Copyright 2002 Habeas (tm)");
   (str "X-Habeas-SWE-5", str "Sender Warranted Email (SWE) (tm). The sender of this");
   (str "X-Habeas-SWE-6", str "email in exchange for a license for this Habeas");
   (str "X-Habeas-SWE-7", str "warrant mark warrants that this is a Habeas Compliant");
   (str "X-Habeas-SWE-8", str "Message (HCM) and not spam. Please report use of this");
   (str "X-Habeas-SWE-9", str "mark in spam to <http://www.habeas.com/report/>.")].
(** tokenizer.py:1197-1198, 1200, 1205: None if there is no such header, else whether
    it has the value; a Header object is equal to none of the values, its text
    contains replacement characters *)
Definition habeas_value (h : headers) (ov : codes * codes) : option bool :=
  match hget h ov.1 with
  | FNone => None
  | FText s => Some (bool_decide (s = ov.2))
  | FHeader _ => Some false
  end.
(** tokenizer.py:1194-1203, the variables valid_habeas and invalid_habeas *)
Definition habeas_count (h : headers) : nat * bool :=
  foldl (fun '(valid, invalid) ov =>
    match habeas_value h ov with
    | None => (valid, invalid)
    | Some true => (Datatypes.S valid, invalid)
    | Some false => (valid, true)
    end) (O, false) habeas_headers.
(** tokenizer.py:1182-1216; [reduce] is X_REDUCE_HABEAS_HEADERS *)
Definition habeas_tokens (reduce : bool) (h : headers) : list pyword :=
  if reduce then
    let '(valid, invalid) := habeas_count h in
    if (invalid : bool) then [WStr (str "x-habeas-swe:invalid")]
    else if (valid =? 9)%nat then [WStr (str "x-habeas-swe:valid")] else []
  else
    flat_map (fun ov => match habeas_value h ov with
                        | None => []
                        | Some true => [WStr (lower ov.1 ++ str ":valid")]
                        | Some false => [WStr (lower ov.1 ++ str ":invalid")]
                        end) habeas_headers.

Section options.
  Context (U : unicode) (E : mailpkg).

  (** tokenizer.py:1135-1423, tokenize_headers with its arguments
      basic_header_tokenize and basic_header_tokenize_only; [hb] is None when
      X_SEARCH_FOR_HABEAS_HEADERS is False, else X_REDUCE_HABEAS_HEADERS *)
  Definition tokenize_headers_with (basic only : bool) (hb : option bool) (o : topts) (parts : list mpart) (h : headers) : gen :=
    gapp (gfor (crack_content_xyz U) parts)
    (gapp (if basic then gfor (basic_header U) h else gok [])
    (if basic && only then gok []
     else
       gapp (match hb with None => gok [] | Some reduce => gok (habeas_tokens reduce h) end)
       (gapp (subject_tokens U E h)
       (gapp (gfor (field_tokens U E h) ADDRESS_HEADERS)
       (gapp (summary_tokens U E h (sum_prefixes o) (sum_suffixes o))
       (gapp (gfor (recipient_tokens h) [str "to"; str "cc"])
       (gapp (mailer_tokens U h)
       (gapp (if mine_received o then gfor (received_tokens U) (hget_all h (str "received")) else gok [])
       (gapp (message_id_tokens U h)
             (gok (count_tokens o h))))))))))).

  (** ** The body *)

  (** The two alternatives without a protocol look ahead: "ftp." or "www." and a
      character of a URL other than a dot (strippers.py:63, 66) *)
  Definition bare_ahead (name : codes) : regex :=
    RNot (RNot (RSeq (rlit name) (RChr (fun c => url_char c && negb (c =? 46))))).
  (** strippers.py:56-72, url_fancy_re *)
  Definition url_fancy_re : regex :=
    RSeq RWordb
      (RSeq (RAlt (RSeq (RGroup 1 (RAlt (RSeq (rlit (str "http")) (ropt (ch 115))) (rlit (str "ftp")))) (rlit (str "://")))
            (RAlt (bare_ahead (str "ftp.")) (bare_ahead (str "www."))))
        (RGroup 2 (rplus (RChr url_char)))).
  (** strippers.py:222-306, URLStripper: without a protocol line 235 asks whether
      bytes start with a text; line 245 adds a text to bytes *)
  Definition URLStripper_with (o : bopts) : stripper :=
    Stripper (if fancy_urls o then url_fancy_re else url_re) empty_re (fun g =>
      match group 1 g with
      | None => Err TypeError
      | Some proto => if pick_apart o then Err TypeError else Ok (url_tokens proto (the_group 2 g))
      end).

  (** int(log2(n)), tokenizer.py:1450, without rounding errors *)
  Definition int_log2 (n : nat) : N := N.log2 (N.of_nat n).
  (** tokenizer.py:1427-1450, the loop of tokenize_text: [rs] is the set
      short_runs, [count] is short_count *)
  Fixpoint text_loop (short : bool) (rs : list nat) (count : nat) (ws : list codes) : gen :=
    match ws with
    | [] => if short then match rs with
                          | [] => gok []
                          | _ => gok [WStr (str "short:" ++ digits (int_log2 (max_list rs)))]
                          end
            else gok []
    | w :: ws =>
        let n := length w in
        if (n <? 3)%nat then text_loop short rs (Datatypes.S count) ws
        else
          gapp (if (n <=? SKIP_MAX_WORD_SIZE)%nat then gok [WBytes w] else tokenize_word (WBytes w))
            (text_loop short (match count with O => rs | _ => count :: rs end) O ws)
    end.
  (** tokenizer.py:1425-1450, tokenize_text *)
  Definition tokenize_text_with (short : bool) (text : codes) : gen := text_loop short [] O (words_of text).

  (** tokenizer.py:1523-1559: one text part.  The table of line 1530 is a text,
      bytes.translate raises. *)
  Definition tokenize_payload_with (o : bopts) (text : codes) : gen :=
    match sub_with_text numeric_entity_re text with
    | Err e => gerr e
    | Ok text =>
        let text := blower text in
        if replace_nonascii o then gerr TypeError
        else
          gapp (gok (virus_tokens text))
            (crack [UUencodeStripper; URLStripper_with o; StyleStripper; CommentStripper; NoframesStripper] text (fun text =>
              match sub_with_text breaking_entity_re text with
              | Err e => gerr e
              | Ok text =>
                  match sub_with_text html_re text with
                  | Err e => gerr e
                  | Ok text => tokenize_text_with (short_runs o) text
                  end
              end))
    end.
  (** tokenizer.py:1506-1559: one text part, with the payload *)
  Definition tokenize_part_with (o : bopts) (a2b : codes -> res codes) (p : payload) : gen :=
    match p with
    | PBytes b => tokenize_payload_with o b
    | _ => tokenize_part a2b p
    end.

  (** tokenizer.py:57, OCTET_PREFIX_SIZE *)
  Definition OCTET_PREFIX_SIZE : nat := 5.
  (** tokenizer.py:1463-1474: one application/octet-stream part.  Decoded payloads
      are bytes, formatted by their repr; a payload that could not be decoded is text. *)
  Definition octet_tokens (p : payload) : list pyword :=
    match p with
    | PBytes b => [WStr (str "octet:" ++ repr_bytes (take OCTET_PREFIX_SIZE b))]
    | PNone => [WStr (str "control: octet payload is None")]
    | PRaises None => [WStr (str "control: couldn't decode octet"); WStr (str "control: octet payload is None")]
    | PRaises (Some s) => [WStr (str "control: couldn't decode octet"); WStr (str "octet:" ++ take OCTET_PREFIX_SIZE s)]
    end.
  (** tokenizer.py:1482-1491: one image part: tokens and length *)
  Definition image_tokens (p : payload) : list pyword * nat :=
    match p with
    | PBytes b => ([], length b)
    | PNone => ([WStr (str "control: image payload is None")], O)
    | PRaises None => ([WStr (str "control: couldn't decode image"); WStr (str "control: image payload is None")], O)
    | PRaises (Some s) => ([WStr (str "control: couldn't decode image")], length s)
    end.
  (** tokenizer.py:1476-1494 *)
  Definition images_tokens (ps : list payload) : list pyword :=
    let total_len := foldl (fun n p => (n + (image_tokens p).2)%nat) O ps in
    flat_map (fun p => (image_tokens p).1) ps ++
    match total_len with
    | O => []
    | n => [WStr (str "image-size:2**" ++ digits (round_log2 n))]
    end.

  (** tokenizer.py:1452-1559, tokenize_body: [octets], [images] and [texts] are the
      payloads of octetparts(msg), imageparts(msg) and textparts(msg) in the order in
      which they are iterated *)
  Definition tokenize_body_with (o : bopts) (a2b : codes -> res codes) (octets images texts : list payload) : gen :=
    gapp (if check_octets o then gfor (fun p => gok (octet_tokens p)) octets else gok [])
    (gapp (if image_size o then gok (images_tokens images) else gok [])
          (gfor (tokenize_part_with o a2b) texts)).

  (** tokenizer.py:1127-1133, Tokenizer.__call__: its two arguments are not handed on *)
  Definition tokenizer_call_with (basic only : bool) (hb : option bool) (o : topts) (b : bopts) (a2b : codes -> res codes)
      (parts : list mpart) (h : headers) (octets images texts : list payload) : gen :=
    let '(ts, e) := gapp (tokenize_headers_with false false hb o parts h) (tokenize_body_with b a2b octets images texts) in
    convert_to_bytes ts e.
End options.
