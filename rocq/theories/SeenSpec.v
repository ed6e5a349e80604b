(** * Specification: which headers of a message the tokenizer looks at *)
From Coq Require Import String.
From Verif Require Import Py MessageModel.

(** The headers of which the values are read; [mine] says whether Received is among them. *)
Definition valued (mine : bool) : list codes :=
  [str "subject"; str "from"; str "to"; str "cc"; str "sender"; str "reply-to"; str "x-mailer"; str "message-id"]
  ++ if mine then [str "received"] else [].

(** The headers that are counted, whatever their values. *)
Definition counted : list codes :=
  [str "abuse-reports-to"; str "date"; str "errors-to"; str "from"; str "importance"; str "in-reply-to";
   str "message-id"; str "mime-version"; str "organization"; str "received"; str "reply-to"; str "return-path";
   str "subject"; str "to"; str "user-agent"; str "x-abuse-info"; str "x-complaints-to"; str "x-face"].

(** A header list as the tokenizer should see it: other headers are left out, and so
    are the values of those that are only counted.  The spelling of names remains. *)
Definition seen_header (mine : bool) (kv : codes * hval) : option (codes * option hval) :=
  if bool_decide (lower kv.1 ∈ valued mine) then Some (kv.1, Some kv.2)
  else if bool_decide (lower kv.1 ∈ counted) then Some (kv.1, None)
  else None.
Definition seen (mine : bool) (h : headers) : list (codes * option hval) := omap (seen_header mine) h.
