(** * Model of strippers.py
    as the constants of the module are set: FANCY_URL_RECOGNITION (strippers.py:37)
    and X_PICK_APART_URLS (41) are in OptModel.v; X_LOOKUP_IP (45) and with it the
    cache is not modelled. *)
From Coq Require Import String.
From Verif Require Import Py Regex.
Local Open Scope N_scope.

(** ** The expressions *)

(** One given character, as it occurs in the expressions of strippers.py:48-90, 309-319 *)
Definition ch (c : N) : regex := RChr (N.eqb c).
(** [\s*], strippers.py:49 and others *)
Definition rspaces : regex := RStar (RChr is_space).
(** [\s+], strippers.py:84-85 *)
Definition rspaces1 : regex := rplus (RChr is_space).
(** [\S+], strippers.py:85-86 *)
Definition rnonspaces1 : regex := rplus (RChr (fun c => negb (is_space c))).
(** [[^>]*], strippers.py:49, 313 *)
Definition rnongt : regex := RStar (RChr (fun c => negb (c =? 62))).

(** strippers.py:48-50, html_style_start_re *)
Definition style_start_re : regex :=
  RSeq (ch 60) (RSeq rspaces (RSeq (rlit (str "style")) (RSeq RWordb (RSeq rnongt (ch 62))))).
(** strippers.py:309-310, the end of a style section *)
Definition style_end_re : regex := rlit (str "</style>").

(** strippers.py:313, the start of a comment *)
Definition comment_start_re : regex :=
  RAlt (rlit (str "<!--"))
       (RSeq (ch 60) (RSeq rspaces (RSeq (rlit (str "comment")) (RSeq rspaces (RSeq rnongt (ch 62)))))).
(** strippers.py:314, the end of a comment *)
Definition comment_end_re : regex := RAlt (rlit (str "-->")) (rlit (str "</comment>")).

(** strippers.py:318, the start of a noframes section *)
Definition noframes_start_re : regex :=
  RSeq (ch 60) (RSeq rspaces (RSeq (rlit (str "noframes")) (RSeq rspaces (ch 62)))).
(** strippers.py:319, its end *)
Definition noframes_end_re : regex := RSeq (rlit (str "</noframes")) (RSeq rspaces (ch 62)).

(** The characters of a URL after the protocol (no blank, angle bracket, quote,
    DEL or 8-bit character), strippers.py:80 *)
Definition url_char (c : N) : bool :=
  negb (is_space c || (c =? 60) || (c =? 62) || (c =? 34) || (c =? 39) || (127 <=? c)).
(** strippers.py:74-81, url_re *)
Definition url_re : regex :=
  RSeq (RGroup 1 (RAlt (RSeq (rlit (str "http")) (ropt (ch 115))) (rlit (str "ftp"))))
       (RSeq (rlit (str "://")) (RGroup 2 (rplus (RChr url_char)))).
(** strippers.py:229, the empty expression *)
Definition empty_re : regex := REps.

(** strippers.py:83-88, uuencode_begin_re *)
Definition uuencode_begin_re : regex :=
  RSeq RBol (RSeq (rlit (str "begin")) (RSeq rspaces1 (RSeq (RGroup 1 rnonspaces1)
    (RSeq rspaces1 (RSeq (RGroup 2 rnonspaces1) (RSeq rspaces REol)))))).
(** strippers.py:90, uuencode_end_re *)
Definition uuencode_end_re : regex := RSeq RBol (RSeq (rlit (str "end")) (RSeq rspaces (ch 10))).

(** strippers.py:52, the characters of urlsep_re *)
Definition is_urlsep (c : N) : bool := existsb (N.eqb c) (str ";?:@&=+,$.").

(** [pattern.split(s)] for a pattern of one character of a class, strippers.py:99, 104, 303, 304 *)
Fixpoint split_on (p : N -> bool) (s : codes) : list codes :=
  match s with
  | [] => [[]]
  | c :: s =>
      if p c then [] :: split_on p s
      else match split_on p s with
           | w :: ws => (c :: w) :: ws
           | [] => [[c]]
           end
  end.

(** ** Strippers *)

(** The two searches and the tokenize method of a stripper, strippers.py:158-169, 199-201 *)
Record stripper := Stripper {
  find_start : regex;
  find_end : regex;
  tokenize_start : caps -> res (list pyword)
}.

(** strippers.py:177-197, the loop of Stripper.analyze from a position on: the
    retained text and the tokens.  [fuel] bounds the number of sections; the
    separator (strippers.py:156) is empty. *)
Fixpoint analyze_from (fuel : nat) (st : stripper) (c : cur) : res (codes * list pyword) :=
  match fuel with
  | O => Ok ([], [])
  | S fuel =>
      match rsearch (find_start st) c with
      | None => Ok (post c, [])
      | Some (s, e, g) =>
          rbind (tokenize_start st g) (fun tokens =>
          match rsearch (find_end st) e with
          | None => Ok (between c s ++ post s, tokens)
          | Some (_, i, _) =>
              rbind (analyze_from fuel st i) (fun '(retained, more) =>
              Ok (between c s ++ retained, tokens ++ more))
          end)
      end
  end.
(** strippers.py:177-197, Stripper.analyze *)
Definition analyze (st : stripper) (text : codes) : res (codes * list pyword) :=
  analyze_from (S (length text)) st (start text).

(** strippers.py:199-201, Stripper.tokenize *)
Definition no_tokens (g : caps) : res (list pyword) := Ok [].

(** strippers.py:309-310 *)
Definition StyleStripper : stripper := Stripper style_start_re style_end_re no_tokens.
(** strippers.py:313-314 *)
Definition CommentStripper : stripper := Stripper comment_start_re comment_end_re no_tokens.
(** strippers.py:318-319 *)
Definition NoframesStripper : stripper := Stripper noframes_start_re noframes_end_re no_tokens.

(** The text of a group that took part in the match ([m.groups()], strippers.py:217, 232) *)
Definition the_group (n : nat) (g : caps) : codes := default [] (group n g).

(** strippers.py:231-306, URLStripper.tokenize.  Line 302 computes the URL
    without trailing punctuation and drops the result. *)
Definition url_tokens (proto guts : codes) : list pyword :=
  WBytes (str "proto:" ++ proto) ::
  flat_map (fun piece => (fun chunk => WBytes (str "url:" ++ chunk)) <$> split_on is_urlsep piece)
           (split_on (N.eqb 47) guts).
(** strippers.py:222-229, URLStripper *)
Definition URLStripper : stripper :=
  Stripper url_re empty_re (fun g => Ok (url_tokens (the_group 1 g) (the_group 2 g))).

(** A generator: the values it yields, and the exception that ends it, if any
    (strippers.py:97-107). *)
Definition gen := (list pyword * option exn)%type.

(** strippers.py:97-107, crack_filename: "fname:" + fname raises on bytes; on
    text the first token is yielded and the bytes expression of line 99 raises. *)
Definition crack_filename (fname : pyword) : gen :=
  match fname with
  | WStr s => ([WStr (str "fname:" ++ s)], Some TypeError)
  | _ => ([], Some TypeError)
  end.

(** [['...%s' % x for x in it]], strippers.py:219 *)
Definition prefixed (p : codes) (g : gen) : res (list pyword) :=
  match g with
  | (ws, None) => Ok ((fun w => WStr (p ++ pystr w)) <$> ws)
  | (_, Some e) => Err e
  end.

(** strippers.py:211-219, UUencodeStripper *)
Definition UUencodeStripper : stripper :=
  Stripper uuencode_begin_re uuencode_end_re (fun g =>
    let mode := the_group 1 g in
    let fname := the_group 2 g in
    rbind (prefixed (str "uuencode:") (crack_filename (WBytes fname))) (fun ws =>
    Ok (WStr (str "uuencode mode:" ++ repr_bytes mode) :: ws))).

(** ** SlurpingURLStripper, classifiers/slurping.py *)
(** classifiers/slurping.py:143-159, SlurpingURLStripper.tokenize: the protocol
    is bytes and is compared with a text (line 151); were it equal, line 155
    would look for an integer in a text.  Lines 139 and 158 assign local
    variables. *)
Definition slurp_tokens (proto guts : codes) : res (list pyword) :=
  let tokens := url_tokens proto guts in
  if bool_decide (WBytes proto = WStr (str "http"))
  then match guts with [] => Ok tokens | _ => Err TypeError end
  else Ok tokens.
(** classifiers/slurping.py:131-141, SlurpingURLStripper *)
Definition SlurpingURLStripper : stripper :=
  Stripper url_re empty_re (fun g => slurp_tokens (the_group 1 g) (the_group 2 g)).
