(** * Model of sbclassifier/message.py
    The header list and its methods are those of email.message.Message of the
    standard library with its default policy (compat32), as used by
    message.py:172.  Simplifications: lower-casing of header names is that of
    ASCII; the formatting of numbers and of clues and the conversion of header
    objects to text are parameters; payloads are left out (no modelled method
    reads or changes them). *)
From Coq Require Import String.
From Verif Require Import Py NumModel.

(** ** Headers *)

(** A stored header value: a string, or None (message.py:455 may store None) *)
Inductive hval := HText (s : codes) | HNone.

(** The header list of a message, message.py:172 *)
Notation headers := (list (codes * hval)).

(** Lower-casing of a header name, used by all accesses at message.py:339, 408,
    483-494, 510-529, 547, 558 *)
Definition lower_char (c : N) : N :=
  if ((65 <=? c) && (c <=? 90))%N then (c + 32)%N else c.
(** Lower-casing of a header name, message.py:339, 408, 483-558 *)
Definition lower (s : codes) : codes := lower_char <$> s.

(** Are two header names the same?  message.py:339, 408, 483-558 *)
Definition same_name (a b : codes) : bool := bool_decide (lower a = lower b).

(** What reading a header gives: None, a string, or, for a value that was parsed
    from raw 8-bit bytes (it contains surrogate code points), a Header object.
    message.py:339, 483, 492, 510, 521, 547 *)
Inductive fetched := FNone | FText (s : codes) | FHeader (s : codes).

(** Surrogate code points, with which the email package represents raw 8-bit
    bytes when a message is parsed from bytes, message.py:155 *)
Definition is_surrogate (c : N) : bool := ((0xD800 <=? c) && (c <=? 0xDFFF))%N.
(** Does a value contain raw 8-bit bytes?  message.py:155 *)
Definition has_surrogates (s : codes) : bool := existsb is_surrogate s.

(** The stored value seen through the policy, message.py:339, 483, 492, 510, 521, 547 *)
Definition fetch (v : hval) : fetched :=
  match v with
  | HNone => FNone
  | HText s => if has_surrogates s then FHeader s else FText s
  end.

(** [self[name]], message.py:339, 483, 492, 510, 521, 547: the first header *)
Fixpoint hget (h : headers) (name : codes) : fetched :=
  match h with
  | [] => FNone
  | (k, v) :: h => if same_name k name then fetch v else hget h name
  end.

(** [self[name] = value], message.py:408, 419, 422, 452, 455, 485, 494: appended *)
Definition hset (h : headers) (name : codes) (v : hval) : headers := h ++ [(name, v)].

(** [del self[name]], message.py:558: all of them *)
Definition hdel (h : headers) (name : codes) : headers :=
  filter (fun kv => same_name kv.1 name = false) h.

(** [self.replace_header(name, value)], message.py:483, 491, 518, 529: the first
    one keeps its place and its spelling; None is KeyError *)
Fixpoint hreplace (h : headers) (name : codes) (v : hval) : option headers :=
  match h with
  | [] => None
  | (k, w) :: h => if same_name k name then Some ((k, v) :: h)
                   else (cons (k, w)) <$> hreplace h name v
  end.

(** message.py:97 *)
Definition n_class : codes := str "X-Spambayes-Classification".
(** message.py:117 *)
Definition n_score : codes := str "X-Spambayes-Spam-Probability".
(** message.py:120 *)
Definition n_level : codes := str "X-Spambayes-Level".
(** message.py:123 *)
Definition n_evidence : codes := str "X-Spambayes-Evidence".
(** message.py:126 *)
Definition n_mailid : codes := str "X-Spambayes-MailId".
(** message.py:137 *)
Definition n_trained : codes := str "X-Spambayes-Trained".
(** message.py:491, 510 *)
Definition n_subject : codes := str "Subject".
(** message.py:483, 521 *)
Definition n_to : codes := str "To".

(** message.py:540-546 and 554-557 *)
Definition sb_names : list codes :=
  [n_class; n_mailid; n_class ++ str "-ID"; n_level; n_evidence; n_score; n_trained].

(** ** Messages *)

(** message.py:146 *)
Inductive cls := spam | ham | unsure.

Global Instance cls_eq_dec : EqDecision cls.
Proof. solve_decision. Defined.

(** [c.name], message.py:146, 408 *)
Definition cls_name (c : cls) : codes :=
  match c with spam => str "spam" | ham => str "ham" | unsure => str "unsure" end.

(** A message object: messageid, c, t (message.py:183-185) and the headers *)
Record mail := Mail {
  g_id : option codes;
  g_c : option cls;
  g_t : option bool;
  g_h : headers
}.

(** An argument of set_id, message.py:247: a string, None, or some other object
    with its comparison against strings *)
Inductive idarg := AStr (s : codes) | ANone | AOther (eqs : codes -> bool).

(** message.py:139-140 *)
Definition reserved_ids : list codes :=
  [str "Statistics start date"; str "Persistent statistics"].

(** The comparison [self.messageid != new_id] at message.py:248 *)
Definition id_differs (s : codes) (x : idarg) : bool :=
  match x with
  | AStr s' => negb (bool_decide (s = s'))
  | ANone => true
  | AOther eqs => negb (eqs s)
  end.

(** message.py:247-257, set_id *)
Definition set_id (x : idarg) : M mail unit := fun m =>
  match g_id m with
  | Some (c :: s) => if id_differs (c :: s) x then (m, Err ValueError) else
      match x with
      | ANone => (m, Err ValueError)
      | AOther _ => (m, Err TypeError)
      | AStr s => if bool_decide (s ∈ reserved_ids) then (m, Err ValueError)
                  else (Mail (Some s) (g_c m) (g_t m) (g_h m), Ok tt)
      end
  | _ =>
      match x with
      | ANone => (m, Err ValueError)
      | AOther _ => (m, Err TypeError)
      | AStr s => if bool_decide (s ∈ reserved_ids) then (m, Err ValueError)
                  else (Mail (Some s) (g_c m) (g_t m) (g_h m), Ok tt)
      end
  end.

(** message.py:175-188, Message(message_id); from_bytes and from_string
    (message.py:154-164) do the same on headers that were parsed *)
Definition new_mail (x : idarg) : res mail :=
  match x with
  | ANone => Ok (Mail None None None [])
  | _ => match set_id x (Mail None None None []) with
         | (m, Ok _) => Ok m
         | (_, Err e) => Err e
         end
  end.

Section message.
  (** [str] of a Header object made from raw bytes, used when formatting at
      message.py:483, 491 and comparing at message.py:248 *)
  Context (hstr : codes -> codes).

  (** A fetched header value as an argument of set_id, message.py:339 *)
  Definition id_of_fetched (f : fetched) : idarg :=
    match f with
    | FNone => ANone
    | FText s => AStr s
    | FHeader s => AOther (fun s' => bool_decide (s' = hstr s))
    end.

  (** message.py:337-342, set_id_from_payload: only ValueError is caught *)
  Definition set_id_from_payload : M mail (option codes) := fun m =>
    match set_id (id_of_fetched (hget (g_h m) n_mailid)) m with
    | (m', Ok _) => (m', Ok (g_id m'))
    | (m', Err ValueError) => (m', Ok None)
    | (m', Err e) => (m', Err e)
    end.

  (** message.py:310-312, remember_trained *)
  Definition remember_trained (t : option bool) (m : mail) : mail :=
    Mail (g_id m) (g_c m) t (g_h m).

  (** Formatting a fetched value with %s or {}, message.py:483, 491 *)
  Definition fmt_fetched (f : fetched) : codes :=
    match f with FNone => str "None" | FText s => s | FHeader s => hstr s end.

  (** message.py:474-485, the To part of add_notations, for classification c *)
  Definition notate_to_hdr (c : cls) (h : headers) : headers :=
    let address := cls_name c ++ str "@spambayes.invalid" in
    match hreplace h n_to (HText (address ++ str "," ++ fmt_fetched (hget h n_to))) with
    | Some h' => h'
    | None => hset h n_to (HText address)
    end.

  (** message.py:489-494, the Subject part of add_notations *)
  Definition notate_subject_hdr (c : cls) (h : headers) : headers :=
    match hreplace h n_subject (HText (cls_name c ++ str "," ++ fmt_fetched (hget h n_subject))) with
    | Some h' => h'
    | None => hset h n_subject (HText (cls_name c))
    end.

  (** message.py:459-494, add_notations *)
  Definition add_notations (nto nsub : list cls) (c : cls) (h : headers) : headers :=
    let h := if bool_decide (c ∈ nto) then notate_to_hdr c h else h in
    if bool_decide (c ∈ nsub) then notate_subject_hdr c h else h.

  (** [s.startswith(d)] followed by [s[len(d):]], message.py:517-518, 528-529 *)
  Fixpoint strip_prefix (d s : codes) : option codes :=
    match d, s with
    | [], s => Some s
    | x :: d, y :: s => if (x =? y)%N then strip_prefix d s else None
    | _ :: _, [] => None
    end.

  (** The loop with break at message.py:516-520 and 527-531 *)
  Fixpoint strip_first (ds : list codes) (s : codes) : option codes :=
    match ds with
    | [] => None
    | d :: ds => match strip_prefix d s with Some r => Some r | None => strip_first ds s end
    end.

  (** message.py:512-514 *)
  Definition subject_notations : list codes :=
    [cls_name ham ++ str ","; cls_name spam ++ str ","; cls_name unsure ++ str ","].
  (** message.py:523-525 *)
  Definition to_notations : list codes :=
    [cls_name ham ++ str "@spambayes.invalid,"; cls_name spam ++ str "@spambayes.invalid,";
     cls_name unsure ++ str "@spambayes.invalid,"].

  (** message.py:510-520 and 521-531, for one header: a Header object has no
      method startswith; replace_header finds the header that was read *)
  Definition remove_notation (name : codes) (ds : list codes) (flag : bool) : M headers unit := fun h =>
    match hget h name with
    | FNone | FText [] => (h, Ok tt)
    | FHeader _ => if flag then (h, Err AttributeError) else (h, Ok tt)
    | FText s =>
        if flag
        then match strip_first ds s with
             | None => (h, Ok tt)
             | Some r => match hreplace h name (HText r) with
                         | Some h' => (h', Ok tt)
                         | None => (h, Err KeyError)
                         end
             end
        else (h, Ok tt)
    end.

  (** message.py:496-531, remove_notations(remove_subject_notations,
      remove_to_notations) *)
  Definition remove_notations (rsubject rto : bool) : M headers unit :=
    mbind (remove_notation n_subject subject_notations rsubject) (fun _ =>
           remove_notation n_to to_notations rto).

  (** message.py:552-561, remove_sb_headers(remove_to_notations,
      remove_subject_notations): the two are passed on by position *)
  Definition remove_sb_headers (rto rsubject : bool) : M headers unit := fun h =>
    remove_notations rto rsubject (foldl hdel h sb_names).

  (** message.py:533-550, current_sb_headers: a dictionary, here the list of its
      items in order *)
  Definition current_sb_headers (h : headers) : list (codes * fetched) :=
    omap (fun n => match hget h n with FNone => None | f => Some (n, f) end) sb_names.

  Section headers.
    Context (A : num).

    (** An argument of set_classification, message.py:293 *)
    Inductive carg := CEnum (c : cls) | CFloat (p : F A) | COther.

    (** constants.py:8 *)
    Definition ham_cutoff : F A := nQ A 1 5.
    (** constants.py:9 *)
    Definition spam_cutoff : F A := nQ A 9 10.

    (** message.py:297-305 *)
    Definition classify (p : F A) : cls :=
      if nlt A p ham_cutoff then ham else if nlt A spam_cutoff p then spam else unsure.

    (** message.py:293-308, set_classification *)
    Definition set_classification (x : carg) : M mail cls := fun m =>
      match x with
      | CEnum c => (Mail (g_id m) (Some c) (g_t m) (g_h m), Ok c)
      | CFloat p => (Mail (g_id m) (Some (classify p)) (g_t m) (g_h m), Ok (classify p))
      | COther => (m, Err ValueError)
      end.

    (** slurping.py:105-110, is_unsure *)
    Definition is_unsure (p : F A) : bool := nlt A ham_cutoff p && nlt A p spam_cutoff.

    (** Formatting: the score text (message.py:411-418), [int(prob * 10)]
        (message.py:422) and a clue (message.py:430-435) *)
    Context (fmt_score : F A -> codes) (level : F A -> nat) (fmt_clue : pyword -> F A -> codes).

    (** The options of add_sb_headers, message.py:344-349; the cutoff and
        one minus the cutoff (message.py:425-426) *)
    Record opts := Opts {
      o_thermostat : bool;
      o_score : bool;
      o_evidence : bool;
      o_hco : F A;
      o_add_id : bool;
      o_notate_to : list cls;
      o_notate_subject : list cls
    }.

    (** message.py:427-435: the clues shown, formatted *)
    Definition evidence_clues (hco : F A) (clues : list (pyword * F A)) : list codes :=
      (fun ws => fmt_clue ws.1 ws.2) <$>
        filter (fun ws => bool_decide (ws.1 = WBytes (str "*H*")) || bool_decide (ws.1 = WBytes (str "*S*"))
                          || nle A ws.2 hco || nle A (nsub A (nZ A 1) hco) ws.2 = true) clues.

    (** message.py:443-451, the loop, after the length [len] so far *)
    Fixpoint wrap_from (len : nat) (evd : list codes) : codes :=
      match evd with
      | [] => []
      | [c] => c
      | c :: ((d :: _) as evd) =>
          let len := (len + length c)%nat in
          if (len + 2 + length d <? 78)%nat
          then c ++ str "; " ++ wrap_from len evd
          else c ++ [59; 10; 9]%N ++ wrap_from 8 evd
      end.
    (** message.py:440-452 *)
    Definition wrap_evidence (evd : list codes) : codes := wrap_from (length n_evidence + 2) evd.

    (** message.py:410-419: "%.*f" of an enum raises *)
    Definition add_score (x : carg) : M mail unit := fun m =>
      match x with
      | CFloat p => (Mail (g_id m) (g_c m) (g_t m) (hset (g_h m) n_score (HText (fmt_score p))), Ok tt)
      | _ => (m, Err TypeError)
      end.

    (** message.py:421-422 *)
    Definition add_level (x : carg) : M mail unit := fun m =>
      match x with
      | CFloat p => (Mail (g_id m) (g_c m) (g_t m)
                       (hset (g_h m) n_level (HText (replicate (level p) 42%N))), Ok tt)
      | _ => (m, Err TypeError)
      end.

    (** Appending one header, message.py:408, 452, 455 *)
    Definition m_hset (name : codes) (v : hval) : M mail unit := fun m =>
      (Mail (g_id m) (g_c m) (g_t m) (hset (g_h m) name v), Ok tt).

    (** message.py:344-457, add_sb_headers *)
    Definition add_sb_headers (x : carg) (clues : list (pyword * F A)) (o : opts) : M mail unit :=
      mbind (set_classification x) (fun c =>
      mbind (m_hset n_class (HText (cls_name c))) (fun _ =>
      mbind (if o_score o then add_score x else mret tt) (fun _ =>
      mbind (if o_thermostat o then add_level x else mret tt) (fun _ =>
      mbind (if o_evidence o
             then m_hset n_evidence (HText (wrap_evidence (evidence_clues (o_hco o) clues)))
             else mret tt) (fun _ =>
      mbind (if o_add_id o
             then fun m => m_hset n_mailid (match g_id m with Some s => HText s | None => HNone end) m
             else mret tt) (fun _ m =>
        (Mail (g_id m) (g_c m) (g_t m) (add_notations (o_notate_to o) (o_notate_subject o) c (g_h m)),
         Ok tt))))))).
  End headers.
End message.

(** ** Texts *)

(** message.py:143 and 167-169, force_crlf *)
Fixpoint force_crlf (s : codes) : codes :=
  match s with
  | [] => []
  | c :: s' =>
      if (c =? 13)%N
      then match s' with
           | d :: s'' => if (d =? 10)%N then 13%N :: 10%N :: force_crlf s''
                         else 13%N :: 10%N :: force_crlf s'
           | [] => [13; 10]%N
           end
      else if (c =? 10)%N then 13%N :: 10%N :: force_crlf s'
      else c :: force_crlf s'
  end.

(** Does [\n\r?\n] match here, and what follows?  message.py:588 *)
Definition blank_here (s : codes) : option codes :=
  match s with
  | a :: b :: s' =>
      if (a =? 10)%N
      then if (b =? 10)%N then Some s'
           else match s' with
                | c :: s'' => if ((b =? 13) && (c =? 10))%N then Some s'' else None
                | [] => None
                end
      else None
  | _ => None
  end.

(** [re.split(r'\n\r?\n', s, 1)], message.py:588; None: no match *)
Fixpoint split_blank (s : codes) : option (codes * codes) :=
  match blank_here s with
  | Some b => Some ([], b)
  | None => match s with
            | [] => None
            | c :: s => (fun hb => (c :: hb.1, hb.2)) <$> split_blank s
            end
  end.

(** [re.sub(r'\r?\n', '\r\n', s)], message.py:593 *)
Fixpoint crlf_sub (s : codes) : codes :=
  match s with
  | [] => []
  | c :: s' =>
      match s' with
      | d :: s'' => if ((c =? 13) && (d =? 10))%N then 13%N :: 10%N :: crlf_sub s''
                    else if (c =? 10)%N then 13%N :: 10%N :: crlf_sub s' else c :: crlf_sub s'
      | [] => if (c =? 10)%N then [13; 10]%N else [c]
      end
  end.

(** The join at message.py:580: a newline and a space between the lines *)
Fixpoint join_details (ls : list codes) : codes :=
  match ls with
  | [] => []
  | [l] => l
  | l :: ls => l ++ [10; 32]%N ++ join_details ls
  end.

(** message.py:567-598, insert_exception_header, for the lines of the exception
    text (message.py:572-579) and the text of the Header object made from their
    join (message.py:582); the second component of the result is left out *)
Definition insert_exception_header (hdr : codes -> codes) (s : codes) (details : list codes)
    (msg_id : option codes) : codes :=
  let hb := match split_blank s with Some hb => hb | None => (s, []) end in
  let h := hb.1 ++ [10%N] ++ str "X-Spambayes-Exception" ++ str ": "
             ++ crlf_sub (hdr (join_details details)) ++ [13; 10]%N in
  let h := match msg_id with
           | Some (c :: i) => h ++ n_mailid ++ str ": " ++ (c :: i) ++ [13; 10]%N
           | _ => h
           end in
  h ++ [13; 10]%N ++ hb.2.

(** message.py:321-325, __getstate__ and __setstate__: what copying or pickling
    a message keeps; the new object has no header list *)
Definition getstate (m : mail) : option codes * option cls * option bool := (g_id m, g_c m, g_t m).
