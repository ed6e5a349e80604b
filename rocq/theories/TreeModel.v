(** * Messages with parts: tokenizer.py:787-809, 1127-1133, 1452-1559
    A message is a tree.  What the email package tells about each node is given:
    the record of HeadModel.v for its own headers, its header list, and its
    payload.  Options have their default values (CHECK_OCTETS, IMAGE_SIZE and
    CRACK_IMAGES are off; for these see OptModel.v).  Simplification: no part
    object occurs twice in a message. *)
From Coq Require Import String.
From Verif Require Import Py NumModel ClassifierModel StripModel RaiseModel TokenModel MessageModel HeadModel.

(** A part of a message: what strippers.py:110-141 asks it for, its headers
    (tokenizer.py:1135-1423), and its payload: undivided, or a list of parts
    (multipart/* and message/rfc822) *)
Inductive part := Part (x : mpart) (h : headers) (b : body)
with body := Leaf (p : payload) | Multi (ps : list part).

(** The components, tokenizer.py:794-809, 1510 *)
Definition part_info (p : part) : mpart := match p with Part x _ _ => x end.
(** The headers, tokenizer.py:1135-1423 *)
Definition part_headers (p : part) : headers := match p with Part _ h _ => h end.

(** part.get_payload(decode=True), tokenizer.py:1510: None for a part with parts *)
Definition part_payload (p : part) : payload :=
  match p with Part _ _ (Leaf b) => b | Part _ _ (Multi _) => PNone end.

(** msg.walk() of the email package, used at tokenizer.py:794, 800, 808 and 1142:
    the message, then the parts of each of its parts *)
Fixpoint walk (p : part) : list part :=
  p :: match p with
       | Part _ _ (Leaf _) => []
       | Part _ _ (Multi ps) => flat_map walk ps
       end.

(** part.get_content_maintype(), tokenizer.py:795: the type up to the slash *)
Fixpoint maintype (s : codes) : codes :=
  match s with
  | [] => []
  | c :: s => if (c =? 47)%N then [] else c :: maintype s
  end.

(** tokenizer.py:795 *)
Definition is_text (p : part) : bool := bool_decide (maintype (pt_type (part_info p)) = str "text").

Section tree.
  Context (U : unicode) (E : mailpkg).
  (** The order in which the set of tokenizer.py:794 is iterated at line 1506 *)
  Context (order : list part -> list part).

  (** tokenizer.py:792-795, textparts *)
  Definition textparts (m : part) : list part := order (filter (fun p => is_text p = true) (walk m)).

  (** tokenizer.py:1127-1133, Tokenizer.__call__, on a message *)
  Definition tokenize_message (o : topts) (a2b : codes -> res codes) (m : part) : gen :=
    tokenizer_call U E false false o a2b (part_info <$> walk m) (part_headers m) (part_payload <$> textparts m).
End tree.

Section score.
  Context {A : num} {St : Type} (bk : backend St) (it : set_order).

  (** basic.py:212-278, spamprob(..., evidence=True) of a generator by an object
      without bigrams: [set(wordstream)] (basic.py:569) exhausts it first *)
  Definition score_gen (g : gen) : M (obj A St) (F A * list (pyword * F A)) := fun o =>
    match g with
    | (ws, None) => spamprob_evidence bk it (SIter ws) o
    | (_, Some e) => (o, Err e)
    end.
End score.
