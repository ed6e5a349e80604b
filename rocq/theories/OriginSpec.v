(** * Specification: which header the tokens of a message come from *)
From Coq Require Import String.
From Verif Require Import Py StripSpec TokenModel TokenSpec MessageModel HeadModel HeadSpec TreeModel TreeSpec.

(** Where the tokens with a label come from: the content headers of the message and its parts, the
    values of some headers (names in lower case), or the names of the headers. *)
Inductive origin := OParts | OValues (names : list codes) | ONames.

Definition labels : list (codes * origin) :=
  [(str "content-type:", OParts); (str "content-type/type:", OParts); (str "charset:", OParts);
   (str "content-disposition:", OParts); (str "filename:", OParts);
   (str "subject:", OValues [str "subject"]); (str "subjectcharset:", OValues [str "subject"]);
   (str "from:", OValues [str "from"]); (str "to:", OValues [str "to"]); (str "cc:", OValues [str "cc"]);
   (str "sender:", OValues [str "sender"]); (str "reply-to:", OValues [str "reply-to"]);
   (str "pfxlen:", OValues [str "to"; str "cc"]); (str "sfxlen:", OValues [str "to"; str "cc"]);
   (str "x-mailer:", OValues [str "x-mailer"]); (str "received:", OValues [str "received"]);
   (str "message-id:", OValues [str "message-id"]); (str "header:", ONames); (str "noheader:", ONames)].

(** A token that looks like one from a header *)
Definition labelled (w : pyword) : Prop := exists l og s, (l, og) ∈ labels /\ w = WBytes (l ++ s).

(** Two messages that agree about the origin of a label *)
Definition agree_on (og : origin) (m m' : part) : Prop :=
  match og with
  | OParts => forall x, (exists p, inside p m /\ part_info p = x) <-> (exists p, inside p m' /\ part_info p = x)
  | OValues names => forall name vs, name ∈ names -> values name (part_headers m) vs <-> values name (part_headers m') vs
  | ONames => (part_headers m).*1 = (part_headers m').*1
  end.

(** The payloads of the text parts *)
Definition text_inside (t : payload) (m : part) : Prop := exists p, inside p m /\ text_type (part_info p) /\ part_payload p = t.
Definition same_texts (m m' : part) : Prop := forall t, text_inside t m <-> text_inside t m'.

(** A text part shows the word w: it is left when the text is turned to lower case and
    URLs, style sections, comments and noframes sections are removed. *)
Definition shows_word (m : part) (w : codes) : Prop :=
  exists b t t' urls ws, text_inside (PBytes b) m /\ Forall2 lower_of b t /\ left_over t t' urls /\ words t' ws /\ w ∈ ws.

(** No word of 3 to 12 characters looks like a token from a header. *)
Definition honest (m : part) : Prop := forall w, shows_word m w -> 3 <= length w <= 12 -> ~ labelled (WBytes w).
