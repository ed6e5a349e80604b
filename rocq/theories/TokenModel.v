(** * Model of the word and body tokenizing of tokenizer.py
    Modelled with the values the options have in the module: CHECK_OCTETS,
    IMAGE_SIZE, CRACK_IMAGES, REPLACE_NONASCII_CHARS and X_SHORT_RUNS are False,
    GENERATE_LONG_SKIPS is True, SKIP_MAX_WORD_SIZE is 12. *)
From Coq Require Import String.
From Verif Require Import Py Regex StripModel CdbModel.
Local Open Scope N_scope.

(** ** Generators *)

(** Going on with another generator after one is exhausted (tokenizer.py:1131,
    1452-1559) *)
Definition gapp (g h : gen) : gen :=
  match g with
  | (ws, None) => let '(vs, e) := h in (ws ++ vs, e)
  | (ws, Some e) => (ws, Some e)
  end.
(** [for x in xs: yield from f(x)], tokenizer.py:1452-1559 *)
Fixpoint gfor {X} (f : X -> gen) (xs : list X) : gen :=
  match xs with
  | [] => ([], None)
  | x :: xs => gapp (f x) (gfor f xs)
  end.
(** Yielding the values of a computation, tokenizer.py:1537-1544 *)
Definition gok (ws : list pyword) : gen := (ws, None).
(** Raising, tokenizer.py:1515-1556 *)
Definition gerr (e : exn) : gen := ([], Some e).

(** ** Words *)

(** tokenizer.py:168, SKIP_MAX_WORD_SIZE *)
Definition SKIP_MAX_WORD_SIZE : nat := 12.

(** [n // 10 * 10], tokenizer.py:887 *)
Definition tens (n : nat) : N := (N.of_nat n / 10 * 10)%N.
(** ["skip:%c %d" % (word[0], n // 10 * 10)], tokenizer.py:887 *)
Definition skip_token (word : codes) : pyword :=
  WStr (str "skip:" ++ take 1 word ++ str " " ++ digits (tens (length word))).

(** tokenizer.py:863-893, tokenize_word.  A long word of bytes with a dot and
    less than 40 bytes: word.count('@') raises (line 875); a long word with an
    8-bit byte: ord of an integer raises (line 890).  A long text raises where
    it meets the bytes of line 875 or the bytes expression of line 888. *)
Definition tokenize_word (word : pyword) : gen :=
  let n := length (wcodes word) in
  if (n <? 3)%nat then gok []
  else if (n <=? SKIP_MAX_WORD_SIZE)%nat then gok [word]
  else match word with
       | WBytes w =>
           if (n <? 40)%nat && existsb (N.eqb 46) w then gerr TypeError
           else if existsb (fun c => 128 <=? c) w then ([skip_token w], Some TypeError)
           else gok [skip_token w]
       | WStr w =>
           if (n <? 40)%nat then gerr TypeError else ([skip_token w], Some TypeError)
       | WNone => gerr TypeError
       end.

(** [text.split()] of bytes, with the word under way, tokenizer.py:1429 *)
Fixpoint words_from (w : codes) (text : codes) : list codes :=
  let done := match w with [] => [] | _ => [w] end in
  match text with
  | [] => done
  | c :: text => if is_space c then done ++ words_from [] text else words_from (w ++ [c]) text
  end.
(** [text.split()] of bytes, tokenizer.py:1429 *)
Definition words_of (text : codes) : list codes := words_from [] text.

(** tokenizer.py:1425-1450, Tokenizer.tokenize_text.  The counts of short words
    are only used when X_SHORT_RUNS is set. *)
Definition tokenize_text (text : codes) : gen :=
  gfor (fun w =>
    let n := length w in
    if (n <? 3)%nat then gok []
    else if (n <=? SKIP_MAX_WORD_SIZE)%nat then gok [WBytes w]
    else tokenize_word (WBytes w)) (words_of text).

(** ** The body *)

(** [text.lower()] of bytes, tokenizer.py:1526 *)
Definition blower (text : codes) : codes :=
  (fun c => if (65 <=? c) && (c <=? 90) then c + 32 else c) <$> text.

(** tokenizer.py:1090, numeric_entity_re; its replacement, tokenizer.py:1093-1097,
    always is a text (see [sub_with_text]) *)
Definition numeric_entity_re : regex :=
  RSeq (rlit (str "&#")) (RSeq (RGroup 1 (rplus (RChr is_num))) (ch 59)).
(** tokenizer.py:1100-1106, breaking_entity_re *)
Definition breaking_entity_re : regex :=
  RAlt (rlit (str "&nbsp;")) (RSeq (ch 60) (RSeq (RAlt (rlit (str "p")) (rlit (str "br"))) (ch 62))).
(** tokenizer.py:817-823, html_re *)
Definition html_re : regex :=
  RSeq (ch 60) (RSeq (RNot (RChr (fun c => is_space c || (c =? 60) || (c =? 62))))
    (RSeq (rupto 256 (RChr (fun c => negb (c =? 62)))) (ch 62))).
(** An optional quote, tokenizer.py:1080-1081 *)
Definition rquote : regex := ropt (RChr (fun c => (c =? 39) || (c =? 34))).
(** tokenizer.py:1078-1082, virus_re *)
Definition virus_re : regex :=
  RAlt (RSeq (ch 60) (RSeq (ropt (ch 47)) (RSeq rspaces
         (RSeq (RAlt (rlit (str "script")) (rlit (str "iframe"))) RWordb))))
  (RAlt (RSeq RWordb (RSeq (rlit (str "src=")) (RSeq rquote (rlit (str "cid:")))))
        (RSeq RWordb (RSeq (RAlt (rlit (str "height")) (rlit (str "width")))
           (RSeq (ch 61) (RSeq rquote (ch 48)))))).

(** [pattern.sub(repl, text)] for a bytes expression that does not match the
    empty text and a replacement that is (or returns) text: joining raises as
    soon as there is a match.  tokenizer.py:1523, 1548, 1556 *)
Definition sub_with_text (r : regex) (text : codes) : res codes :=
  match rsearch r (start text) with
  | None => Ok text
  | Some _ => Err TypeError
  end.

(** tokenizer.py:1085-1087, find_html_virus_clues, and 1532-1533: the bytes are
    formatted into a text *)
Definition virus_tokens (text : codes) : list pyword :=
  (fun w => WStr (str "virus:" ++ repr_bytes w)) <$> findall virus_re text.

(** tokenizer.py:1537-1544: the crackers, one after the other, each followed by
    its tokens; then [k] on what is left. *)
Fixpoint crack (sts : list stripper) (text : codes) (k : codes -> gen) : gen :=
  match sts with
  | [] => k text
  | st :: sts =>
      match analyze st text with
      | Err e => gerr e
      | Ok (text', tokens) => gapp (gok tokens) (crack sts text' k)
      end
  end.
(** tokenizer.py:1052, 1062-1070, 1537-1541 *)
Definition crackers : list stripper :=
  [UUencodeStripper; URLStripper; StyleStripper; CommentStripper; NoframesStripper].

(** tokenizer.py:1523-1559: one text part whose decoded payload is [text] *)
Definition tokenize_payload (text : codes) : gen :=
  match sub_with_text numeric_entity_re text with
  | Err e => gerr e
  | Ok text =>
      let text := blower text in
      gapp (gok (virus_tokens text))
        (crack crackers text (fun text =>
          match sub_with_text breaking_entity_re text with
          | Err e => gerr e
          | Ok text =>
              match sub_with_text html_re text with
              | Err e => gerr e
              | Ok text => tokenize_text text
              end
          end))
  end.

(** ** Damaged base64 *)

(** Letters, digits, + and /, tokenizer.py:1007 *)
Definition is_b64 (c : N) : bool :=
  ((97 <=? c) && (c <=? 122)) || ((65 <=? c) && (c <=? 90)) || is_num c || (c =? 43) || (c =? 47).
(** Blank or tab, tokenizer.py:1006, 1009 *)
Definition is_tab (c : N) : bool := (c =? 32) || (c =? 9).
(** tokenizer.py:1005-1012, base64_re *)
Definition base64_re : regex :=
  RSeq (RStar (RChr is_tab)) (RSeq (RStar (RChr is_b64)) (RSeq (RGroup 1 (RStar (ch 61)))
    (RSeq (RStar (RChr is_tab)) (RSeq (ropt (ch 13)) (ch 10))))).

(** tokenizer.py:1017-1025: the position after the leading base64 lines *)
Fixpoint base64_end (fuel : nat) (c : cur) : cur :=
  match fuel with
  | O => c
  | S fuel =>
      match rmatch1 base64_re c with
      | None => c
      | Some (d, g) => match the_group 1 g with [] => base64_end fuel d | _ => d end
      end
  end.

(** tokenizer.py:1015-1034, try_to_repair_damaged_base64; [a2b] is
    binascii.a2b_base64.  Decoded bytes cannot be added to the text (line 1034). *)
Definition try_to_repair_damaged_base64 (a2b : codes -> res codes) (text : codes) : res codes :=
  let c := start text in
  let i := base64_end (S (length text)) c in
  match between c i with
  | [] => Ok text
  | base64 => match a2b base64 with
              | Ok _ => Err TypeError
              | Err _ => Ok (post i)
              end
  end.

(** ** Parts *)

(** What part.get_payload(decode=True) does: returns bytes, returns None, or
    raises, after which get_payload(decode=False) returns None or a text
    (tokenizer.py:1508-1515) *)
Inductive payload := PBytes (b : codes) | PNone | PRaises (raw : option codes).

(** tokenizer.py:1506-1559: one text part.  A text that could not be decoded is
    not bytes, so the bytes expression of line 1523 raises. *)
Definition tokenize_part (a2b : codes -> res codes) (p : payload) : gen :=
  match p with
  | PBytes b => tokenize_payload b
  | PNone => gok [WStr (str "control: payload is None")]
  | PRaises None => gok [WStr (str "control: couldn't decode"); WStr (str "control: payload is None")]
  | PRaises (Some raw) =>
      gapp (gok [WStr (str "control: couldn't decode")])
        (match try_to_repair_damaged_base64 a2b raw with
         | Err e => gerr e
         | Ok _ => gerr TypeError
         end)
  end.

(** tokenizer.py:1452-1559, Tokenizer.tokenize_body: the text parts in the order
    in which the set of line 794 is iterated *)
Definition tokenize_body (a2b : codes -> res codes) (parts : list payload) : gen :=
  gfor (tokenize_part a2b) parts.

(** tokenizer.py:776-784, convert_to_bytes *)
Fixpoint convert_to_bytes (ws : list pyword) (e : option exn) : gen :=
  match ws with
  | [] => ([], e)
  | w :: ws =>
      match w with
      | WStr s => match utf8 s with
                  | Ok b => gapp (gok [WBytes b]) (convert_to_bytes ws e)
                  | Err x => gerr x
                  end
      | WBytes b => gapp (gok [WBytes b]) (convert_to_bytes ws e)
      | WNone => gerr TypeError
      end
  end.
