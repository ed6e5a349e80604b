(** * Specification of messages, headers and texts *)
From Coq Require Import String.
From Verif Require Import Py NumModel MessageModel.

(** ** Headers *)

(** The seven headers of the filter, in lower case. *)
Definition filter_headers : list codes :=
  [str "x-spambayes-classification"; str "x-spambayes-spam-probability"; str "x-spambayes-level";
   str "x-spambayes-evidence"; str "x-spambayes-mailid"; str "x-spambayes-trained";
   str "x-spambayes-classification-id"].

Definition is_filter_header (k : codes) : Prop := lower k ∈ filter_headers.

Global Instance is_filter_header_dec k : Decision (is_filter_header k).
Proof. unfold is_filter_header. apply _. Defined.

(** The headers of others. *)
Definition others (h : headers) : headers := filter (fun kv => ~ is_filter_header kv.1) h.

(** The notations in front of a Subject and of a To header. *)
Definition subject_notation (d : codes) : Prop :=
  d ∈ [str "ham,"; str "spam,"; str "unsure,"].
Definition to_notation (d : codes) : Prop :=
  d ∈ [str "ham@spambayes.invalid,"; str "spam@spambayes.invalid,"; str "unsure@spambayes.invalid,"].

(** The header list h has the name (in any letter case), and its first value is v. *)
Definition first_is (h : headers) (name : codes) (v : hval) : Prop :=
  exists l1 k l2, h = l1 ++ (k, v) :: l2 /\ lower k = name
    /\ Forall (fun kv => lower kv.1 <> name) l1.

Definition absent (h : headers) (name : codes) : Prop := Forall (fun kv => lower kv.1 <> name) h.

(** No raw 8-bit bytes (represented by surrogates). *)
Definition no_raw (s : codes) : Prop := Forall (fun c => ~ (0xD800 <= c <= 0xDFFF)%N) s.

(** The first value of the name contains raw 8-bit bytes. *)
Definition raw_first (h : headers) (name : codes) : Prop :=
  exists s, first_is h name (HText s) /\ ~ no_raw s.

(** Header i of h has the name and no earlier one has. *)
Definition first_at (h : headers) (name : codes) (i : nat) : Prop :=
  (exists k v, h !! i = Some (k, v) /\ lower k = name)
  /\ forall j k v, j < i -> h !! j = Some (k, v) -> lower k <> name.

(** h' is h, except that one notation may be gone from the first Subject and the
    first To header. *)
Definition up_to_notation (h h' : headers) : Prop :=
  h'.*1 = h.*1 /\
  forall i k v v', h !! i = Some (k, v) -> h' !! i = Some (k, v') ->
    v' = v
    \/ (first_at h (str "subject") i /\ exists d s, subject_notation d /\ v = HText (d ++ s) /\ v' = HText s)
    \/ (first_at h (str "to") i /\ exists d s, to_notation d /\ v = HText (d ++ s) /\ v' = HText s).

(** How many headers have the name? *)
Definition count_header (h : headers) (name : codes) : nat :=
  length (filter (fun kv => lower kv.1 = name) h).

(** ** Ids *)

(** What a program can do to the id of a message (changing headers in between). *)
Inductive id_call := CallSetId (x : idarg) | CallFromPayload | ChangeHeaders (h : headers).

Definition id_step (hstr : codes -> codes) (m : mail) (c : id_call) : mail :=
  match c with
  | CallSetId x => fst (set_id x m)
  | CallFromPayload => fst (set_id_from_payload hstr m)
  | ChangeHeaders h => Mail (g_id m) (g_c m) (g_t m) h
  end.

Definition id_steps (hstr : codes -> codes) (m : mail) (cs : list id_call) : mail :=
  foldl (id_step hstr) m cs.

Definition acceptable (s : codes) : Prop :=
  s <> str "Statistics start date" /\ s <> str "Persistent statistics".

(** ** Classification *)
Definition rank (c : cls) : nat := match c with ham => 0 | unsure => 1 | spam => 2 end.

(** Several classifications of the same message, none of which raises. *)
Inductive classified {A : num} (hstr : codes -> codes) (fs : F A -> codes) (lv : F A -> nat)
    (fc : pyword -> F A -> codes) : list cls -> mail -> mail -> Prop :=
  | classified_nil m : classified hstr fs lv fc [] m m
  | classified_cons x clues o c cs m m' m'' :
      add_sb_headers hstr A fs lv fc x clues o m = (m', Ok tt) ->
      g_c m' = Some c ->
      classified hstr fs lv fc cs m' m'' ->
      classified hstr fs lv fc (c :: cs) m m''.

(** The list after some removals, whatever their options and outcome. *)
Definition removals (fl : list (bool * bool)) (h : headers) : headers :=
  foldl (fun h ab => fst (remove_sb_headers ab.1 ab.2 h)) h fl.

(** Assigning the items of a dictionary. *)
Definition reassign (h : headers) (d : list (codes * codes)) : headers :=
  foldl (fun h kv => hset h kv.1 (HText kv.2)) h d.

(** ** Texts *)

(** CR and LF occur only as CR LF. *)
Inductive crlf_only : codes -> Prop :=
  | crlf_nil : crlf_only []
  | crlf_char c s : c <> 13%N -> c <> 10%N -> crlf_only s -> crlf_only (c :: s)
  | crlf_pair s : crlf_only s -> crlf_only (13%N :: 10%N :: s).

(** The lines of a text: split at CR LF, at CR not followed by LF, and at LF. *)
Inductive has_lines : codes -> list codes -> Prop :=
  | lines_last l : 13%N ∉ l -> 10%N ∉ l -> has_lines l [l]
  | lines_crlf l s ls : 13%N ∉ l -> 10%N ∉ l -> has_lines s ls ->
      has_lines (l ++ 13%N :: 10%N :: s) (l :: ls)
  | lines_lf l s ls : 13%N ∉ l -> 10%N ∉ l -> has_lines s ls ->
      has_lines (l ++ 10%N :: s) (l :: ls)
  | lines_cr l s ls : 13%N ∉ l -> 10%N ∉ l -> head s <> Some 10%N -> has_lines s ls ->
      has_lines (l ++ 13%N :: s) (l :: ls).

(** Joining with a separator. *)
Fixpoint join (sep : codes) (ls : list codes) : codes :=
  match ls with
  | [] => []
  | [l] => l
  | l :: ls => l ++ sep ++ join sep ls
  end.

(** Splitting a header value at semicolons, dropping the blank space behind each. *)
Fixpoint split_semi (s : codes) : list codes :=
  match s with
  | [] => [[]]
  | c :: s =>
      if (c =? 59)%N then [] :: split_semi s
      else match split_semi s with l :: ls => (c :: l) :: ls | [] => [[c]] end
  end.
Fixpoint drop_space (s : codes) : codes :=
  match s with
  | c :: s' => if ((c =? 32) || (c =? 10) || (c =? 9))%N then drop_space s' else s
  | [] => []
  end.
Definition fields (s : codes) : list codes := drop_space <$> split_semi s.

(** A formatted clue contains no semicolon and does not start with blank space. *)
Definition plain_clue (c : codes) : Prop :=
  59%N ∉ c /\ c <> [] /\ forall x, head c = Some x -> x <> 32%N /\ x <> 10%N /\ x <> 9%N.

(** The lines of the evidence header as lists of clues. *)
Definition line_text (g : list codes) : codes := join (str "; ") g.
Definition total_length (g : list codes) : nat := sum_list (length <$> g).

(** The first blank line of s is between h and b. *)
Definition blank_line_at (s h b : codes) : Prop :=
  (s = h ++ [10; 10]%N ++ b \/ s = h ++ [10; 13; 10]%N ++ b)
  /\ forall h' b', s = h' ++ [10; 10]%N ++ b' \/ s = h' ++ [10; 13; 10]%N ++ b' -> length h <= length h'.

Definition no_blank_line (s : codes) : Prop :=
  forall h b, s <> h ++ [10; 10]%N ++ b /\ s <> h ++ [10; 13; 10]%N ++ b.

(** A text without line breaks. *)
Definition one_line (l : codes) : Prop := 10%N ∉ l /\ 13%N ∉ l.

(** The fields inserted into the header section, for the header text t. *)
Definition exception_fields (t : codes) (id : option codes) : codes :=
  str "X-Spambayes-Exception: " ++ t ++ [13; 10]%N
  ++ match id with
     | Some i => if decide (i = []) then [] else str "X-Spambayes-MailId: " ++ i ++ [13; 10]%N
     | None => []
     end.
