(** * The lifetime of trainers: trainers.py:46-51
    A signal holds its receivers weakly (blinker's connect, the default, called
    at trainers.py:50-51): a trainer that is no longer referenced by the program
    stops receiving.  Receivers of a signal and sender are kept in a set, so
    connecting twice has the effect of once; the set is called in any order.
    Simplification: an unreferenced trainer goes away at once, as in CPython,
    where nothing refers to a trainer but the program. *)
From Verif Require Import Py NumModel ClassifierModel StripModel RaiseModel ObserveModel.

(** One entry of the table of a signal, trainers.py:50-51: the signal, the
    corpus, the identity of the trainer, the trainer *)
Record conn := Conn { cn_event : event; cn_corpus : nat; cn_id : nat; cn_watcher : watcher }.

Global Instance event_eq : EqDecision event.
Proof. solve_decision. Defined.

(** What a program does: create a trainer (trainers.py:46), give up the last
    reference to it, or call a method (base.py:150, 163, trainers.py:53) *)
Inductive lop :=
  | LNew (id : nat) (w : watcher) (corpora : list nat)
  | LDrop (id : nat)
  | LCall (x : ocall).

(** blinker's connect with a sender, trainers.py:50, 51 *)
Definition connect (e : event) (i id : nat) (w : watcher) (cs : list conn) : list conn :=
  if existsb (fun c => bool_decide (cn_event c = e) && (cn_corpus c =? i) && (cn_id c =? id)) cs then cs else cs ++ [Conn e i id w].

(** trainers.py:49-51, the loop of __init__ *)
Definition connect_all (id : nat) (w : watcher) (corpora : list nat) (cs : list conn) : list conn :=
  foldl (fun cs i => connect Removed i id w (connect Added i id w cs)) cs corpora.

(** The receivers a signal calls, base.py:161, 175 *)
Definition receivers (e : event) (i : nat) (cs : list conn) : list watcher :=
  cn_watcher <$> List.filter (fun c => bool_decide (cn_event c = e) && (cn_corpus c =? i)) cs.

Section life.
  Context {A : num} {St : Type} (bk : backend St) (it : set_order) (p : program) (ord : list watcher -> list watcher).

  (** The program as it is while these connections exist, base.py:161, 175 *)
  Definition connected (cs : list conn) : program :=
    Program (p_id p) (p_key p) (p_tok p) (fun e i => ord (receivers e i cs)).

  (** One step of a program, trainers.py:46-51, base.py:150, 163 *)
  Definition run_lop (x : lop) (cs : list conn) (s : state A St) : list conn * state A St :=
    match x with
    | LNew id w corpora => (connect_all id w corpora cs, s)
    | LDrop id => (List.filter (fun c => negb (cn_id c =? id)) cs, s)
    | LCall x => (cs, (run_ocall bk it (connected cs) x s).1)
    end.

  (** A program; exceptions are caught, trainers.py:46-51, base.py:150, 163 *)
  Fixpoint run_lops (xs : list lop) (cs : list conn) (s : state A St) : list conn * state A St :=
    match xs with
    | [] => (cs, s)
    | x :: xs => let '(cs, s) := run_lop x cs s in run_lops xs cs s
    end.
End life.
