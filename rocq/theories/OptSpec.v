(** * What tokenizing yields with the options switched on
    Of the models only types and the record of options are used. *)
From Coq Require Import String.
From Verif Require Import Py RegexSpec StripSpec TokenModel TokenSpec MessageModel MessageSpec HeadModel HeadSpec MailSpec OptModel.

(** ** Settings with few options switched on *)
Definition with_parts (octets images : bool) : bopts := Bopts octets images false false false false.
Definition with_shorts : bopts := Bopts false false true false false false.
Definition with_fancy : bopts := Bopts false false false false true false.

(** ** Basic header tokens *)

(** The names that are skipped *)
Definition skipped_name (k : codes) : Prop := str "received date x-" `prefix_of` lower k.
Definition basic_header_list (U : unicode) (kv : codes * hval) (ts : list pyword) : Prop :=
  (skipped_name kv.1 /\ ts = []) \/
  (~ skipped_name kv.1 /\ exists s ws, text_value kv.2 s /\ runs (subject_word_char U) s ws /\
     Forall (fun w => length w <= 12) ws /\
     ts = (fun w => WStr (lower kv.1 ++ str ":" ++ w)) <$> filter (fun w => 3 <= length w) ws).
Definition basic_list (U : unicode) (h : headers) (ts : list pyword) : Prop :=
  exists tss, Forall2 (basic_header_list U) h tss /\ ts = mjoin tss.

(** ** Habeas headers *)
Definition habeas_marks : list (codes * codes) :=
  [(str "x-habeas-swe-1", str "winter into spring");
   (str "x-habeas-swe-2", str "brightly anticipated");
   (str "x-habeas-swe-3", str "like Habeas SWE (tm)");
   (str "x-habeas-swe-4", str "Copyright 2002 Habeas (tm)");
   (str "x-habeas-swe-5", str "Sender Warranted Email (SWE) (tm). The sender of this");
   (str "x-habeas-swe-6", str "email in exchange for a license for this Habeas");
   (str "x-habeas-swe-7", str "warrant mark warrants that this is a Habeas Compliant");
   (str "x-habeas-swe-8", str "Message (HCM) and not spam. Please report use of this");
   (str "x-habeas-swe-9", str "mark in spam to <http://www.habeas.com/report/>.")].
Definition mark_right (h : headers) (m : codes * codes) : Prop := header_or h m.1 FNone (FText m.2).
Definition mark_wrong (h : headers) (m : codes * codes) : Prop :=
  exists x, header_or h m.1 FNone x /\ x <> FNone /\ x <> FText m.2.
Definition mark_missing (h : headers) (m : codes * codes) : Prop := header_or h m.1 FNone FNone.
Definition mark_tokens (h : headers) (m : codes * codes) (ts : list pyword) : Prop :=
  (mark_missing h m /\ ts = []) \/ (mark_right h m /\ ts = [WStr (m.1 ++ str ":valid")]) \/
  (mark_wrong h m /\ ts = [WStr (m.1 ++ str ":invalid")]).
(** [hb]: None when the headers are not searched for, else whether one token is
    wanted instead of nine *)
Definition habeas_list (hb : option bool) (h : headers) (ts : list pyword) : Prop :=
  match hb with
  | None => ts = []
  | Some false => exists tss, Forall2 (mark_tokens h) habeas_marks tss /\ ts = mjoin tss
  | Some true =>
      (Exists (mark_wrong h) habeas_marks /\ ts = [WStr (str "x-habeas-swe:invalid")]) \/
      (Forall (mark_right h) habeas_marks /\ ts = [WStr (str "x-habeas-swe:valid")]) \/
      (~ Exists (mark_wrong h) habeas_marks /\ ~ Forall (mark_right h) habeas_marks /\ ts = [])
  end.

(** ** All headers; [header_list] without parts is what is yielded by default *)
Definition header_list_with (U : unicode) (E : mailpkg) (basic only : bool) (hb : option bool) (o : topts)
    (parts : list mpart) (h : headers) (ts : list pyword) : Prop :=
  exists t1 t2 t3, part_list U parts t1 /\ (if basic then basic_list U h t2 else t2 = []) /\
    (if basic && only then t3 = []
     else exists t4 t5, habeas_list hb h t4 /\ header_list U E o [] h t5 /\ t3 = t4 ++ t5) /\
    ts = t1 ++ t2 ++ t3.

(** ** URLs *)

(** www. or ftp. and the rest of a host name, without protocol *)
Definition bare_url (w : codes) : Prop :=
  exists p c rest, w = p ++ c :: rest /\ p ∈ [str "www."; str "ftp."] /\ c <> 46%N /\ Forall (fun c => ~ url_stop c) w.
(** A URL with or without protocol; no word continues before it, and it runs as
    far as it can. *)
Definition fancy_here (x w y : codes) : Prop :=
  ((exists proto guts, is_url w proto guts) \/ bare_url w) /\ ~ ends_with_word x /\
  (forall c rest, y = c :: rest -> url_stop c).
Definition url_begin (o : bopts) : codes -> codes -> codes -> Prop := if fancy_urls o then fancy_here else url_here.

(** ** Runs of short words *)

(** [n] short words in a row that come after the beginning or a longer word and
    are followed by a longer word *)
Definition followed_run (ws : list codes) (n : nat) : Prop :=
  0 < n /\ exists a s c b, ws = a ++ s ++ c :: b /\ length s = n /\ Forall (fun w => length w < 3) s /\ 3 <= length c /\
    (a = [] \/ exists a' l, a = a' ++ [l] /\ 3 <= length l).
Definition short_list (wanted : bool) (ws : list codes) (ts : list pyword) : Prop :=
  (wanted = false /\ ts = []) \/
  (wanted = true /\ (forall n, ~ followed_run ws n) /\ ts = []) \/
  (wanted = true /\ exists m k, followed_run ws m /\ (forall n, followed_run ws n -> n <= m) /\
     (2 ^ k <= N.of_nat m < 2 ^ (k + 1))%N /\ ts = [WStr (str "short:" ++ digits k)]).

(** ** A text part *)
Definition left_over_with (o : bopts) (t t' : codes) (urls : list codes) : Prop :=
  exists t1 t2 t3 s2 s3 s4,
    stripped (url_begin o) at_once [] t t1 urls /\ stripped style_start style_end [] t1 t2 s2 /\
    stripped comment_start comment_end [] t2 t3 s3 /\ stripped noframes_start noframes_end [] t3 t' s4.
(** A URL that does not make tokenizing raise *)
Definition url_fine (o : bopts) (w : codes) : Prop := pick_apart o = false /\ ~ bare_url w.
Definition tokenizable_with (o : bopts) (b : codes) : Prop :=
  replace_nonascii o = false /\
  exists t t' urls ws, Forall2 lower_of b t /\ left_over_with o t t' urls /\ words t' ws /\
    ~ occurs numeric_entity b /\ ~ occurs uu_begin t /\ Forall (url_fine o) urls /\
    ~ occurs breaking_entity t' /\ ~ occurs html_tag t' /\ Forall (fun w => ~ bad_word w) ws.
Definition body_tokens_with (o : bopts) (b : codes) (ts : list pyword) : Prop :=
  exists t t' urls ws clues tss wss sts, Forall2 lower_of b t /\ left_over_with o t t' urls /\ words t' ws /\
    found virus_clue [] t clues /\ Forall2 url_token_list urls tss /\ Forall2 word_tokens ws wss /\
    short_list (short_runs o) ws sts /\
    ts = ((fun w => WStr (str "virus:" ++ repr_bytes w)) <$> clues) ++ mjoin tss ++ mjoin wss ++ sts.
Definition part_raises_with (o : bopts) (p : payload) : Prop :=
  match p with PBytes b => ~ tokenizable_with o b | PNone => False | PRaises raw => raw <> None end.
Definition part_tokens_with (o : bopts) (p : payload) (ts : list pyword) : Prop :=
  match p with PBytes b => body_tokens_with o b ts | _ => part_tokens p ts end.

(** ** Octet streams and images *)
Definition octet_list (p : payload) (ts : list pyword) : Prop :=
  match p with
  | PBytes b => exists a z, b = a ++ z /\ (length a = 5 \/ (length a < 5 /\ z = [])) /\ ts = [WStr (str "octet:" ++ repr_bytes a)]
  | PNone => ts = [WStr (str "control: octet payload is None")]
  | PRaises None => ts = [WStr (str "control: couldn't decode octet"); WStr (str "control: octet payload is None")]
  | PRaises (Some s) => exists a z, s = a ++ z /\ (length a = 5 \/ (length a < 5 /\ z = [])) /\
      ts = [WStr (str "control: couldn't decode octet"); WStr (str "octet:" ++ a)]
  end.
Definition octets_list (wanted : bool) (ps : list payload) (ts : list pyword) : Prop :=
  (wanted = false /\ ts = []) \/ (wanted = true /\ exists tss, Forall2 octet_list ps tss /\ ts = mjoin tss).

(** The complaints about an image, and its content ([] if there is none) *)
Definition image_content (p : payload) : codes :=
  match p with PBytes b => b | PRaises (Some s) => s | _ => [] end.
Definition image_complaints (p : payload) : list pyword :=
  match p with PRaises _ => [WStr (str "control: couldn't decode image")] | _ => [] end ++
  match p with PNone | PRaises None => [WStr (str "control: image payload is None")] | _ => [] end.
Definition images_list (wanted : bool) (ps : list payload) (ts : list pyword) : Prop :=
  (wanted = false /\ ts = []) \/
  (wanted = true /\ exists sts, ts = mjoin (image_complaints <$> ps) ++ sts /\
     ((mjoin (image_content <$> ps) = [] /\ sts = []) \/
      (mjoin (image_content <$> ps) <> [] /\ exists k, nearest_log2 (length (mjoin (image_content <$> ps))) k /\
         sts = [WStr (str "image-size:2**" ++ digits k)]))).

(** ** A whole message *)
Definition message_list_with (U : unicode) (E : mailpkg) (hb : option bool) (o : topts) (b : bopts)
    (parts : list mpart) (h : headers) (octets images texts : list payload) (bs : list codes) : Prop :=
  exists hts ots its tss, header_list_with U E false false hb o parts h hts /\
    octets_list (check_octets b) octets ots /\ images_list (image_size b) images its /\
    Forall (fun p => ~ part_raises_with b p) texts /\ Forall2 (part_tokens_with b) texts tss /\
    Forall2 encoded (hts ++ ots ++ its ++ mjoin tss) bs.
