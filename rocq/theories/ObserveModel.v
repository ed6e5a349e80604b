(** * Trainers that observe corpora: trainers.py and corpora/base.py:150-175
    Unlike CorpusModel.v, tokenizing may raise, trainers may have different
    classifiers, the order in which a signal calls its receivers is arbitrary,
    and messages are objects that remember how they were trained.
    Simplifications: corpora have the default cache, a dictionary without limit
    (caches.py:53-111); the observers of a corpus are trainers that are alive;
    training does not change what tokenizing a message gives (it changes only
    the attribute t, which the tokenizer does not read). *)
From Verif Require Import Py NumModel ClassifierModel StripModel RaiseModel.

(** base.py:103 and 110, the two signals *)
Inductive event := Added | Removed.

(** trainers.py:46-48, a trainer: the number of its classifier and its label, which
    trainers.py:98-99, 109-110 fix *)
Record watcher := Watcher { t_class : nat; t_spam : bool }.

Section observe.
  Context {A : num} {St : Type} (bk : backend St) (it : set_order).
  Notation obj := (obj A St).

  (** What is fixed in a program (references to messages are numbers):
      the id of a message (message.py:182, 260), whether its class has a method key
      (trainers.py:61, 74), what tokenizing it gives (trainers.py:62, 75), and
      the trainers a signal of a corpus calls, in the order in which they are
      called: trainers.py:49-51 connects train to both signals. *)
  Record program := Program {
    p_id : nat -> option codes;
    p_key : nat -> bool;
    p_tok : nat -> gen;
    p_receivers : event -> nat -> list watcher
  }.
  Context (p : program).

  (** The state: the dictionaries of the corpora (base.py:140), the classifiers
      (trainers.py:47), and the attribute t of the messages (message.py:310-316,
      None at first, message.py:184). *)
  Record state := State {
    s_corpora : nat -> gmap (option codes) nat;
    s_class : nat -> obj;
    s_label : nat -> option bool
  }.

  (** Assignment to an entry of one of these: base.py:159, 172, trainers.py:62, 75,
      message.py:312 *)
  Definition set_at {B} (f : nat -> B) (i : nat) (b : B) : nat -> B := fun j => if decide (j = i) then b else f j.

  (** message.py:310-313, remember_trained *)
  Definition remember (r : nat) (l : option bool) : M state unit := fun s =>
    (State (s_corpora s) (s_class s) (set_at (s_label s) r l), Ok tt).

  (** A call of a method of the classifier with this number, trainers.py:62, 75 *)
  Definition on_class (j : nat) (f : M obj unit) : M state unit := fun s =>
    match f (s_class s j) with
    | (o, x) => (State (s_corpora s) (set_at (s_class s) j o) (s_label s), x)
    end.

  (** trainers.py:53-63, train: [message.key()] is evaluated first *)
  Definition o_train (t : watcher) (r : nat) : M state unit :=
    if p_key p r
    then mbind (on_class (t_class t) (learn_gen bk it (p_tok p r) (t_spam t))) (fun _ => remember r (Some (t_spam t)))
    else merr AttributeError.

  (** trainers.py:65-78, untrain *)
  Definition o_untrain (t : watcher) (r : nat) : M state unit :=
    if p_key p r
    then mbind (on_class (t_class t) (unlearn_gen bk it (p_tok p r) (t_spam t))) (fun _ => remember r None)
    else merr AttributeError.

  (** base.py:161 and 175: the receivers are called one after the other; an
      exception of one leaves send *)
  Definition o_send (e : event) (i r : nat) : M state unit :=
    mfor (p_receivers p e i) (fun t => o_train t r).

  (** base.py:159 with caches.py:88-91, and base.py:172 with caches.py:102-111 *)
  Definition on_corpus (i : nat) (f : gmap (option codes) nat -> gmap (option codes) nat) : M state unit := fun s =>
    (State (set_at (s_corpora s) i (f (s_corpora s i))) (s_class s) (s_label s), Ok tt).

  (** base.py:150-161, add_message *)
  Definition o_add (i r : nat) (message_id : option codes) (emit_signal : bool) : M state unit :=
    let k := match message_id with None => p_id p r | Some k => Some k end in
    mbind (on_corpus i (fun d => <[k := r]> d)) (fun _ => if emit_signal then o_send Added i r else mret tt).

  (** base.py:163-175, remove_message *)
  Definition o_remove (i r : nat) (emit_signal : bool) : M state unit :=
    mbind (on_corpus i (delete (p_id p r))) (fun _ => if emit_signal then o_send Removed i r else mret tt).

  (** The calls of a program, base.py:150, 163, trainers.py:53 *)
  Inductive ocall :=
    | OAdd (i r : nat) (message_id : option codes) (emit : bool)
    | ORemove (i r : nat) (emit : bool)
    | OTrain (t : watcher) (r : nat).

  (** One call, base.py:150, 163, trainers.py:53 *)
  Definition run_ocall (x : ocall) : M state unit :=
    match x with
    | OAdd i r id emit => o_add i r id emit
    | ORemove i r emit => o_remove i r emit
    | OTrain t r => o_train t r
    end.

  (** Several calls in order, base.py:150, 163, trainers.py:53; an exception does
      not end the program.  The results are kept. *)
  Fixpoint run_ocalls (xs : list ocall) (s : state) : state * list (res unit) :=
    match xs with
    | [] => (s, [])
    | x :: xs =>
        let '(s, y) := run_ocall x s in
        let '(s, ys) := run_ocalls xs s in (s, y :: ys)
    end.
End observe.
Global Arguments state A St : clear implicits.
Global Arguments State {A St} _ _ _.
