(** * What tokenizing the headers yields
    Of the models only the types of headers, parts and Unicode tables are used. *)
From Coq Require Import String.
From Verif Require Import Py RegexSpec StripSpec NetSpec TokenSpec MessageModel MessageSpec HeadModel.
Local Open Scope N_scope.

(** The Unicode tables agree with ASCII on ASCII characters. *)
Definition sane (U : unicode) : Prop :=
  (forall c, c < 128 -> u_word U c = true <-> word_char c) /\
  (forall c, c < 128 -> u_space U c = true <-> blank c \/ 28 <= c <= 31) /\
  (forall c, c < 128 -> u_digit U c = true <-> 48 <= c <= 57).

(** [runs P text ws]: ws are the maximal runs of P characters in text. *)
Inductive runs (P : N -> Prop) : codes -> list codes -> Prop :=
  | runs_end : runs P [] []
  | runs_skip c text ws : ~ P c -> runs P text ws -> runs P (c :: text) ws
  | runs_run w text ws : w <> [] -> Forall P w -> (forall c rest, text = c :: rest -> ~ P c) ->
      runs P text ws -> runs P (w ++ text) (w :: ws).

(** The values of all headers of a name (given in lower case), in order. *)
Inductive values (name : codes) : headers -> list hval -> Prop :=
  | values_nil : values name [] []
  | values_take k v h vs : lower k = name -> values name h vs -> values name ((k, v) :: h) (v :: vs)
  | values_skip k v h vs : lower k <> name -> values name h vs -> values name ((k, v) :: h) vs.

(** Text without raw 8-bit bytes. *)
Definition text_value (v : hval) (s : codes) : Prop := v = HText s /\ no_raw s.

(** k is the integer nearest to the binary logarithm of n: n^2 lies between
    2^(2k-1) and 2^(2k+1). *)
Definition nearest_log2 (n : nat) (k : N) : Prop :=
  2 ^ (2 * k) < 2 * (N.of_nat n * N.of_nat n) /\ N.of_nat n * N.of_nat n < 2 * 2 ^ (2 * k).

(** ** Parts *)
Definition optional {A} (f : A -> codes) (x : option A) : list pyword :=
  match x with None => [] | Some a => [WStr (f a)] end.

(** The tokens of a part: of the file name only the whole name, and a token that
    says it is bogus *)
Definition part_token_list (U : unicode) (x : mpart) : list pyword :=
  [WStr (str "content-type:" ++ pt_type x)] ++
  match pt_param x with PText s => [WStr (str "content-type/type:" ++ u_lower U s)] | _ => [] end ++
  match pt_charsets x with
  | None => [WStr (str "charset:invalid_unicode")]
  | Some cs => mjoin (optional (fun c => str "charset:" ++ u_lower U c) <$> cs)
  end ++
  match pt_disposition x with FText s => [WStr (str "content-disposition:" ++ u_lower U s)] | _ => [] end ++
  match pt_filename x with
  | None => []
  | Some f => [WStr (str "filename:fname:" ++ f); WStr (str "filename:<bogus>")]
  end.

(** ** Subject *)
Definition subject_word_char (U : unicode) (c : N) : Prop :=
  u_word U c = true \/ 128 <= c <= 255 \/ c ∈ str "$.%".
Definition blank_for_return (c d : N) : Prop := (c = 13 /\ d = 32) \/ (c <> 13 /\ d = c).
(** The words and the punctuation runs of a piece of text *)
Definition subject_runs (U : unicode) (s : codes) (ws ps : list codes) : Prop :=
  exists t, Forall2 blank_for_return s t /\ runs (subject_word_char U) t ws /\ runs (fun c => u_word U c <> true) t ps.
(** Bytes, or a text with a word of more than 12 characters *)
Definition bad_chunk (U : unicode) (xc : pyword * option codes) : Prop :=
  match xc.1 with
  | WStr s => exists ws ps, subject_runs U s ws ps /\ Exists (fun w => (12 < length w)%nat) ws
  | _ => True
  end.
Definition chunk_tokens (U : unicode) (xc : pyword * option codes) (ts : list pyword) : Prop :=
  exists s ws ps, xc.1 = WStr s /\ subject_runs U s ws ps /\
    ts = optional (fun c => str "subjectcharset:" ++ c) xc.2 ++
         ((fun w => WStr (str "subject:" ++ w)) <$> filter (fun w => (3 <= length w)%nat) ws) ++ ((fun w => WStr (str "subject:" ++ w)) <$> ps).

(** ** Addresses *)

(** Cutting a text at every occurrence of a character. *)
Fixpoint joined (sep : N) (ws : list codes) : codes :=
  match ws with [] => [] | [w] => w | w :: ws => w ++ sep :: joined sep ws end.
Definition cut_at (sep : N) (s : codes) (ws : list codes) : Prop :=
  ws <> [] /\ Forall (fun w : codes => sep ∉ w) ws /\ joined sep ws = s.

Definition name_tokens (U : unicode) (field : codes) (nc : pyword * option codes) (ts : list pyword) : Prop :=
  exists n, ts = WStr (field ++ str ":name:" ++ n) :: optional (fun c => field ++ str ":charset:" ++ c) nc.2 /\
    match nc.1 with
    | WStr s => n = u_lower U s
    | WBytes b => exists b', Forall2 lower_of b b' /\ n = repr_bytes b'
    | WNone => False
    end.
(** An address, with the pieces of its real name ([] if it has none) *)
Definition one_address (U : unicode) (field : codes) (pieces : list (pyword * option codes)) (addr : codes)
    (ts : list pyword) : Prop :=
  exists nts ats, Forall2 (name_tokens U field) pieces nts /\ ts = mjoin nts ++ ats /\
    ((addr = [] /\ ats = [WStr (field ++ str ":addr:none")]) \/
     (addr <> [] /\ exists ws, cut_at 64 (u_lower U addr) ws /\ ats = (fun w => WStr (field ++ str ":addr:" ++ w)) <$> ws)).

(** ** Recipients *)
Definition commas (s : codes) : nat := length (filter (fun c => c = 44) s).

(** p is the longest common prefix of l. *)
Definition longest_common (l : list codes) (p : codes) : Prop :=
  Forall (fun a => p `prefix_of` a) l /\ forall q, Forall (fun a => q `prefix_of` a) l -> q `prefix_of` p.
(** The summary of a list of addresses *)
Definition affix_summary (tag : codes) (limit : nat) (l : list codes) (ts : list pyword) : Prop :=
  ((length l < 2)%nat /\ ts = []) \/
  ((2 <= length l)%nat /\ exists p, longest_common l p /\
    ((p = [] /\ ts = []) \/
     (p <> [] /\ exists q, (10 * q <= length p * length l < 10 * q + 10)%nat /\
       ((q <= limit)%nat /\ ts = [WStr (tag ++ digits (N.of_nat q))] \/
        (limit < q)%nat /\ ts = [WStr (tag ++ str "big")])))).

(** ** Message ids *)
Definition id_host (U : unicode) (s host : codes) : Prop :=
  exists sp l rest, s = sp ++ str "<" ++ l ++ str "@" ++ host ++ str ">" ++ rest /\
    Forall (fun c => u_space U c = true) sp /\ l <> [] /\ 64 ∉ l /\ host <> [] /\ 62 ∉ host.

(** ** Received headers *)
Definition small_letter (c : N) : Prop := 97 <= c <= 122.
(** (two or more words in brackets) *)
Definition complaint (U : unicode) (x w y : codes) : Prop :=
  exists w1 more, w = str "(" ++ w1 ++ mjoin more ++ str ")" /\ w1 <> [] /\ Forall small_letter w1 /\ more <> [] /\
    Forall (fun m => exists sp v, m = sp ++ v /\ sp <> [] /\ v <> [] /\ Forall (fun c => u_space U c = true) sp /\ Forall small_letter v) more.
Definition host_char (c : N) : Prop := small_letter c \/ 48 <= c <= 57 \/ c ∈ str "._-".
Definition from_host (U : unicode) (w host : codes) : Prop :=
  exists c l end_, w = str "from " ++ host ++ [end_] /\ host = l ++ [c] /\ l <> [] /\ Forall host_char l /\ small_letter c /\
    (end_ = 41 \/ u_space U end_ = true).
(** One to three digits and perhaps a dot *)
Definition digit_group (U : unicode) (o : codes) : Prop :=
  exists ds dot, o = ds ++ dot /\ (1 <= length ds <= 3)%nat /\ Forall (fun c => u_digit U c = true) ds /\ dot ∈ [[]; str "."].
Definition bracketed (U : unicode) (w ip : codes) : Prop :=
  exists a b o1 o2 o3 o4, w = [a] ++ ip ++ [b] /\ a ∈ str "[(" /\ b ∈ str "])" /\ ip = o1 ++ o2 ++ o3 ++ o4 /\
    digit_group U o1 /\ digit_group U o2 /\ digit_group U o3 /\ digit_group U o4.
Definition host_here (U : unicode) (x w y : codes) : Prop := exists host, from_host U w host.
Definition ip_here (U : unicode) (x w y : codes) : Prop := exists ip, bracketed U w ip.

(** ** Header counts *)
Definition safe_names : list codes :=
  [str "abuse-reports-to"; str "date"; str "errors-to"; str "from"; str "importance"; str "in-reply-to";
   str "message-id"; str "mime-version"; str "organization"; str "received"; str "reply-to"; str "return-path";
   str "subject"; str "to"; str "user-agent"; str "x-abuse-info"; str "x-complaints-to"; str "x-face"].
(** The number of headers spelled exactly like that *)
Definition spelled (x : codes) (h : headers) : nat := length (filter (fun kv : codes * hval => kv.1 = x) h).

(** ** A header, or a default if there is none *)
Definition header_or (h : headers) (name : codes) (d : fetched) (x : fetched) : Prop :=
  (absent h name /\ x = d) \/ (exists v, first_is h name v /\ x = fetch v).

(** The pieces of the real name of an address, as the email package decodes it;
    a name that it cannot decode is taken as it is. *)
Definition name_pieces (E : mailpkg) (na : codes * codes) (ps : list (pyword * option codes)) : Prop :=
  (na.1 = [] /\ ps = []) \/
  (na.1 <> [] /\ (decode_header E (FText na.1) = Ok ps \/
                  (decode_header E (FText na.1) = Err ValueError /\ ps = [(WStr na.1, Some (str "invalid"))]))).
(** The number of addresses without real name *)
Definition nameless (addrs : list (codes * codes)) : nat := length (filter (fun na : codes * codes => na.1 = []) addrs).

(** ** X-Mailer: the words of the lower-cased text with single blanks between them *)
Definition mailer_text (U : unicode) (s t : codes) : Prop :=
  exists ws, runs (fun c => u_space U c <> true) (u_lower U s) ws /\ t = joined 32%N ws.

(** ** Received headers *)
Definition dot_suffixes (host : codes) (l : list codes) : Prop :=
  (forall t, t ∈ l <-> dot_suffix t host) /\ longer_and_longer l.
Definition dot_prefixes (ip : codes) (l : list codes) : Prop :=
  length l = 4%nat /\ forall i t, l !! i = Some t -> dot_prefix t ip /\ dots t = min i (dots ip).
(** The words of a text with single blanks between them, then lower-cased *)
Definition flattened (U : unicode) (s t : codes) : Prop :=
  exists ws, runs (fun c => u_space U c <> true) s ws /\ t = u_lower U (joined 32 ws).
Definition received_list (U : unicode) (s : codes) (ts : list codes) : Prop :=
  exists t cs hs ips, flattened U s t /\ found (complaint U) [] t cs /\ ts = cs ++ hs ++ ips /\
    ((nowhere (host_here U) [] t /\ hs = []) \/
     (exists k w y host, leftmost (host_here U) [] t k w y /\ from_host U w host /\ dot_suffixes host hs)) /\
    ((nowhere (ip_here U) [] t /\ ips = []) \/
     (exists k w y ip, leftmost (ip_here U) [] t k w y /\ bracketed U w ip /\ dot_prefixes ip ips)).
