(** * What tokenizing a body yields
    Of the model only the type [payload] is used. *)
From Coq Require Import String.
From Verif Require Import Py RegexSpec StripSpec TokenModel.
Local Open Scope N_scope.

(** ** Words *)

(** [words text ws]: ws are the maximal runs of non-blank characters of text. *)
Inductive words : codes -> list codes -> Prop :=
  | words_end : words [] []
  | words_blank c text ws : blank c -> words text ws -> words (c :: text) ws
  | words_word w text ws : w <> [] -> Forall (fun c => ~ blank c) w ->
      (forall c rest, text = c :: rest -> blank c) -> words text ws -> words (w ++ text) (w :: ws).

(** The token for a long word: its first character and its length in tens. *)
Definition skipped (w : codes) (t : pyword) : Prop :=
  exists c rest n, w = c :: rest /\ (10 * n <= length w < 10 * n + 10)%nat /\
    t = WStr (str "skip:" ++ [c] ++ str " " ++ digits (10 * N.of_nat n)).

(** A word of bytes that can be tokenized, and its tokens. *)
Definition bad_word (w : codes) : Prop :=
  (12 < length w)%nat /\ (Exists (fun c => 128 <= c) w \/ ((length w < 40)%nat /\ 46 ∈ w)).
Definition word_tokens (w : codes) (ts : list pyword) : Prop :=
  ((length w < 3)%nat /\ ts = []) \/
  ((3 <= length w <= 12)%nat /\ ts = [WBytes w]) \/
  ((12 < length w)%nat /\ exists t, skipped w t /\ ts = [t]).

(** ** Things that make tokenizing raise *)

(** &#1234; *)
Definition numeric_entity (x w y : codes) : Prop :=
  exists ds, w = str "&#" ++ ds ++ str ";" /\ ds <> [] /\ Forall (fun c => 48 <= c <= 57) ds.
(** &nbsp; <p> <br> *)
Definition breaking_entity (x w y : codes) : Prop := w ∈ [str "&nbsp;"; str "<p>"; str "<br>"].
(** Up to 256 characters between angle brackets, the first being neither a
    blank nor an opening bracket *)
Definition html_tag (x w y : codes) : Prop :=
  exists c t, w = str "<" ++ c :: t ++ str ">" /\ ~ blank c /\ c <> 60 /\ gt_free (c :: t) /\ (length (c :: t) <= 256)%nat.

(** ** Virus clues *)
Definition ends_with_word (x : codes) : Prop := exists x' c, x = x' ++ [c] /\ word_char c.
Definition begins_with_word (y : codes) : Prop := exists c y', y = c :: y' /\ word_char c.
Definition quote (q : codes) : Prop := q ∈ [[]; str "'"; [34]].
Definition virus_clue (x w y : codes) : Prop :=
  (exists slash sp name, w = str "<" ++ slash ++ sp ++ name /\ slash ∈ [[]; str "/"] /\ Forall blank sp /\
     name ∈ [str "script"; str "iframe"] /\ ~ begins_with_word y) \/
  (exists q, w = str "src=" ++ q ++ str "cid:" /\ quote q /\ ~ ends_with_word x) \/
  (exists name q, w = name ++ str "=" ++ q ++ str "0" /\ name ∈ [str "height"; str "width"] /\ quote q /\ ~ ends_with_word x).

(** [found P x s ws]: the places of [s], which comes after [x], where P holds,
    from left to right, each search beginning where the previous match ended. *)
Inductive found (P : codes -> codes -> codes -> Prop) : codes -> codes -> list codes -> Prop :=
  | found_none x s : nowhere P x s -> found P x s []
  | found_next x s k w y ws : leftmost P x s k w y -> found P (x ++ k ++ w) y ws -> found P x s (w :: ws).

(** ** Lower case, of ASCII letters only *)
Definition lower_of (c d : N) : Prop := (65 <= c <= 90 /\ d = c + 32) \/ (~ 65 <= c <= 90 /\ d = c).

(** ** A text part *)

(** The text that is left of a lower-case text when URLs, style sections,
    comments and noframes sections are removed, and the URLs. *)
Definition left_over (t t' : codes) (urls : list codes) : Prop :=
  exists t1 t2 t3 s2 s3 s4,
    stripped url_here at_once [] t t1 urls /\ stripped style_start style_end [] t1 t2 s2 /\
    stripped comment_start comment_end [] t2 t3 s3 /\ stripped noframes_start noframes_end [] t3 t' s4.

Definition tokenizable (b : codes) : Prop :=
  exists t t' urls ws, Forall2 lower_of b t /\ left_over t t' urls /\ words t' ws /\
    ~ occurs numeric_entity b /\ ~ occurs uu_begin t /\
    ~ occurs breaking_entity t' /\ ~ occurs html_tag t' /\ Forall (fun w => ~ bad_word w) ws.

Definition body_tokens (b : codes) (ts : list pyword) : Prop :=
  exists t t' urls ws clues tss wss, Forall2 lower_of b t /\ left_over t t' urls /\ words t' ws /\
    found virus_clue [] t clues /\ Forall2 url_token_list urls tss /\ Forall2 word_tokens ws wss /\
    ts = ((fun w => WStr (str "virus:" ++ repr_bytes w)) <$> clues) ++ mjoin tss ++ mjoin wss.

(** ** Text that could not be decoded *)

(** A line of base64: blanks, base64 characters, equal signs, blanks, a line end. *)
Definition tab (c : N) : Prop := c = 32 \/ c = 9.
Definition b64_char (c : N) : Prop :=
  97 <= c <= 122 \/ 65 <= c <= 90 \/ 48 <= c <= 57 \/ c = 43 \/ c = 47.
Definition b64_line (w : codes) : Prop :=
  exists sp body pad sp' eol, w = sp ++ body ++ pad ++ sp' ++ eol /\ Forall tab sp /\ Forall b64_char body /\
    Forall (eq 61) pad /\ Forall tab sp' /\ eol ∈ [[10]; [13; 10]].
(** [b64_lead text lead rest]: the text begins with the base64 lines [lead]; a
    line with an equal sign is the last one. *)
Inductive b64_lead : codes -> codes -> codes -> Prop :=
  | lead_none text : (forall w y, text = w ++ y -> ~ b64_line w) -> b64_lead text [] text
  | lead_line w y lead rest : b64_line w -> 61 ∉ w -> b64_lead y lead rest -> b64_lead (w ++ y) (w ++ lead) rest
  | lead_last w y : b64_line w -> 61 ∈ w -> b64_lead (w ++ y) w y.

(** ** Parts *)
Definition part_raises (p : payload) : Prop :=
  match p with PBytes b => ~ tokenizable b | PNone => False | PRaises raw => raw <> None end.
Definition part_tokens (p : payload) (ts : list pyword) : Prop :=
  match p with
  | PBytes b => body_tokens b ts
  | PNone => ts = [WStr (str "control: payload is None")]
  | PRaises _ => ts = [WStr (str "control: couldn't decode"); WStr (str "control: payload is None")]
  end.

