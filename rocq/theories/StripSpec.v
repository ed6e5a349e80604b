(** * What the strippers of strippers.py do
    A text is cut into x ++ w ++ y; the predicates below say when the part w is
    the beginning or the end of a section.  No matcher is involved. *)
From Coq Require Import String.
From Verif Require Import Py RegexSpec.
Local Open Scope N_scope.

Definition blank (c : N) : Prop := c ∈ [9; 10; 11; 12; 13; 32].
Definition gt_free (w : codes) : Prop := 62 ∉ w.
Definition word_char (c : N) : Prop := (48 <= c <= 57) \/ (65 <= c <= 90) \/ (97 <= c <= 122) \/ c = 95.

(** <style ...>: the word style is not continued *)
Definition style_start (x w y : codes) : Prop :=
  exists sp attrs, w = str "<" ++ sp ++ str "style" ++ attrs ++ str ">" /\
    Forall blank sp /\ gt_free attrs /\ (forall c rest, attrs = c :: rest -> ~ word_char c).
Definition style_end (x w y : codes) : Prop := w = str "</style>".

(** <!-- or <comment...> *)
Definition comment_start (x w y : codes) : Prop :=
  w = str "<!--" \/
  exists sp attrs, w = str "<" ++ sp ++ str "comment" ++ attrs ++ str ">" /\ Forall blank sp /\ gt_free attrs.
Definition comment_end (x w y : codes) : Prop := w = str "-->" \/ w = str "</comment>".

Definition noframes_start (x w y : codes) : Prop :=
  exists sp sp', w = str "<" ++ sp ++ str "noframes" ++ sp' ++ str ">" /\ Forall blank sp /\ Forall blank sp'.
Definition noframes_end (x w y : codes) : Prop :=
  exists sp, w = str "</noframes" ++ sp ++ str ">" /\ Forall blank sp.

(** A URL: protocol, "://", and all the characters that follow up to a blank, an
    angle bracket, a quote, DEL or an 8-bit character *)
Definition url_stop (c : N) : Prop := blank c \/ c ∈ [60; 62; 34; 39] \/ 127 <= c.
Definition protocols : list codes := [str "http"; str "https"; str "ftp"].
Definition is_url (w proto guts : codes) : Prop :=
  w = proto ++ str "://" ++ guts /\ proto ∈ protocols /\ guts <> [] /\ Forall (fun c => ~ url_stop c) guts.
Definition url_here (x w y : codes) : Prop :=
  (exists proto guts, is_url w proto guts) /\ (forall c rest, y = c :: rest -> url_stop c).
(** A URL ends at once. *)
Definition at_once (x w y : codes) : Prop := w = [].

(** The beginning of a uuencoded section: at the beginning of a line the text
    "begin", blanks, a word, blanks, a word; then only blanks up to the end of
    the line.  The blanks may be line ends. *)
Definition uu_begin (x w y : codes) : Prop :=
  exists sp mode sp' name sp'',
    w = str "begin" ++ sp ++ mode ++ sp' ++ name ++ sp'' /\
    sp <> [] /\ mode <> [] /\ sp' <> [] /\ name <> [] /\
    Forall blank (sp ++ sp' ++ sp'') /\ Forall (fun c => ~ blank c) (mode ++ name) /\
    (x = [] \/ exists x', x = x' ++ [10]) /\ (y = [] \/ exists y', y = 10 :: y').

(** [stripped S E x s kept ws]: of the text [s], which comes after [x], stripping
    the sections that begin with S and end with E keeps [kept]; [ws] are the
    beginnings met. *)
Inductive stripped (Sb Se : codes -> codes -> codes -> Prop) : codes -> codes -> codes -> list codes -> Prop :=
  | strip_none x s :
      nowhere Sb x s -> stripped Sb Se x s s []
  | strip_open x s k w y :
      leftmost Sb x s k w y -> nowhere Se (x ++ k ++ w) y -> stripped Sb Se x s s [w]
  | strip_section x s k w y k' e z kept ws :
      leftmost Sb x s k w y -> leftmost Se (x ++ k ++ w) y k' e z ->
      stripped Sb Se (x ++ k ++ w ++ k' ++ e) z kept ws ->
      stripped Sb Se x s (k ++ kept) (w :: ws).

(** ** The tokens of a URL *)

(** The characters at which the part after the protocol is cut. *)
Definition url_sep (c : N) : Prop := c ∈ str "/;?:@&=+,$.".

(** Putting separators between chunks. *)
Fixpoint weave (chunks : list codes) (seps : list N) : codes :=
  match chunks, seps with
  | [], _ => []
  | c :: cs, s :: seps => c ++ s :: weave cs seps
  | c :: _, [] => c
  end.
Definition chunked (guts : codes) (chunks : list codes) : Prop :=
  exists seps, length chunks = S (length seps) /\ Forall url_sep seps /\
    Forall (Forall (fun c => ~ url_sep c)) chunks /\ guts = weave chunks seps.

Definition url_token_list (w : codes) (ts : list pyword) : Prop :=
  exists proto guts chunks, is_url w proto guts /\ chunked guts chunks /\
    ts = WBytes (str "proto:" ++ proto) :: ((fun c => WBytes (str "url:" ++ c)) <$> chunks).
