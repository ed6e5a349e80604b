(** * Specification vocabulary for the text form of a message *)
From Coq Require Import String.
From Verif Require Import Py MessageSpec OutModel.

Definition own {H} (n : node H) : bool := match n with Node o _ _ => o end.
Definition payload {H} (n : node H) : load H := match n with Node _ _ p => p end.

(** [q] is [n], or a part of it, or a part of a part, ... *)
Inductive within {H} : node H -> node H -> Prop :=
  | within_refl n : within n n
  | within_part o h l q n : q ∈ l -> within n q -> within n (Node o h (LParts l)).

(** All messages in it are sbclassifier messages, as those made by a parser are. *)
Definition all_own {H} (n : node H) : Prop := forall q, within q n -> own q = true.

(** Why as_string may raise [e] on a message. *)
Definition reason {H} (G : generator H) (unixfrom : bool) (q : node H) (e : exn) : Prop :=
  if own q
  then exists mangle e', g_flatten G mangle unixfrom q = Err e' /\
         match e' with
         | TypeError =>
             match payload q with
             | LNone => e = TypeError
             | LText t | LBytes t => t <> [] /\ e = AttributeError
             | LParts _ => False
             end
         | _ => e = e'
         end
  else g_base G unixfrom q = Err e.
