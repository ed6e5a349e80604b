(** * Specification: using classifiers with messages *)
From Verif Require Import Py NumModel ClassifierModel RaiseModel ShelveModel StripModel TokenModel MessageModel HeadModel TreeModel.

(** What a mail program does with a database-backed classifier: train, untrain and score
    messages, store the database, load it again, or open it anew. *)
Inductive mop := MTrain (m : part) (is_spam : bool) | MUntrain (m : part) (is_spam : bool) | MScore (m : part)
  | MStore | MLoad | MReopen.

(** The operations that need the words of a message. *)
Definition reads_message (x : mop) : bool := match x with MTrain _ _ | MUntrain _ _ | MScore _ => true | _ => false end.

Section mail.
  Context (U : unicode) (E : mailpkg) (o : topts) (a2b : codes -> res codes) (it : set_order) (order : list part -> list part).
  Notation toks := (tokenize_message U E order o a2b).
  Context {A : num}.
  Notation sobj := (obj A sstore).

  (** One operation; the result says whether it returned. *)
  Definition run_mop (x : mop) (ob : sobj) : sobj * res unit :=
    match x with
    | MTrain m b => learn_gen shelve_backend it (toks m) b ob
    | MUntrain m b => unlearn_gen shelve_backend it (toks m) b ob
    | MScore m => match score_gen shelve_backend it (toks m) ob with (ob, Ok _) => (ob, Ok tt) | (ob, Err e) => (ob, Err e) end
    | MStore => shelve_store it ob
    | MLoad => shelve_load (s_db (o_store ob)) ob
    | MReopen => shelve_open (s_db (o_store ob))
    end.

  (** Several, going on after exceptions. *)
  Fixpoint run_mops (xs : list mop) (ob : sobj) : sobj * list (res unit) :=
    match xs with
    | [] => (ob, [])
    | x :: xs =>
        let '(ob, r) := run_mop x ob in
        let '(ob, rs) := run_mops xs ob in (ob, r :: rs)
    end.
End mail.
