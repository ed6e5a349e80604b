(** * Model of Message.as_string, sbclassifier/message.py:269-284 *)
From Coq Require Import String.
From Verif Require Import Py MessageModel.

(** A message object: whether it is a sbclassifier Message (message.py:172) or
    a message class of the email package, its headers, and its payload.  List
    elements that are not messages are not modelled.
    (message.py:281-283) *)
Inductive node (H : Type) :=
  | Node (own : bool) (h : H) (p : load H)
(** What get_payload() returns, message.py:282 *)
with load (H : Type) :=
  | LNone | LText (t : codes) | LBytes (b : codes) | LParts (l : list (node H)).
Global Arguments Node {H}. Global Arguments LNone {H}. Global Arguments LText {H}.
Global Arguments LBytes {H}. Global Arguments LParts {H}.

(** The email package (a parameter): [Generator(fp, mangle_from_).flatten(msg, unixfrom)]
    (message.py:276-278), and as_string(unixfrom) of a message of the email
    package itself (message.py:283). *)
Record generator (H : Type) := {
  g_flatten : bool -> bool -> node H -> res codes;
  g_base : bool -> node H -> res codes
}.
Global Arguments g_flatten {H}. Global Arguments g_base {H}.

(** "\n".join(parts), message.py:284 *)
Fixpoint join_lf (ls : list codes) : codes :=
  match ls with
  | [] => []
  | [l] => l
  | l :: ls => l ++ 10%N :: join_lf ls
  end.

Section out.
  Context {H : Type} (G : generator H).

  (** message.py:269-284.  Iterating over a text or over bytes gives texts of
      length one or numbers, which have no method as_string; iterating over
      None raises TypeError. *)
  Fixpoint as_string (unixfrom mangle : bool) (n : node H) : res codes :=
    match n with
    | Node own h p =>
        if negb own then g_base G unixfrom n
        else match g_flatten G mangle unixfrom n with
             | Ok t => Ok (force_crlf t)
             | Err TypeError =>
                 rbind (match p with
                        | LNone => Err TypeError
                        | LText [] | LBytes [] => Ok []
                        | LText _ | LBytes _ => Err AttributeError
                        | LParts l =>
                            (fix parts (l : list (node H)) : res (list codes) :=
                               match l with
                               | [] => Ok []
                               | q :: l => rbind (as_string unixfrom true q) (fun s =>
                                             rbind (parts l) (fun ss => Ok (s :: ss)))
                               end) l
                        end)
                       (fun ss => Ok (force_crlf (join_lf ss)))
             | Err e => Err e
             end
    end.
End out.
