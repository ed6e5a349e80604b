(** * Copies of messages (message.py:318-325) and messages that cannot be written
    (corpora/caches.py:154-162)
    copy.copy, copy.deepcopy and pickle make an object without calling __init__
    and hand it the state that __getstate__ gave.  The attributes which
    email.message.Message.__init__ sets (_headers, _payload and others; [b_in])
    are not part of that state, so the new object does not have them.
    Simplification: an operation that needs the contents raises at its first
    access to such an attribute. *)
From Verif Require Import Py NumModel ClassifierModel StripModel RaiseModel CacheModel MessageModel.

(** A message object: message.py:183-185 and what message.py:176 sets *)
Record mobj (C : Type) := MObj {
  b_id : option codes;
  b_c : option cls;
  b_t : option bool;
  b_in : option C
}.
Global Arguments MObj {C} _ _ _ _.
Global Arguments b_id {C} _.
Global Arguments b_c {C} _.
Global Arguments b_t {C} _.
Global Arguments b_in {C} _.

Section copy.
  Context {C : Type}.
  Notation mobj := (mobj C).

  (** message.py:321-322, __getstate__ *)
  Definition b_getstate (m : mobj) : option codes * option cls * option bool := (b_id m, b_c m, b_t m).

  (** message.py:324-325, __setstate__, on an object without attributes *)
  Definition b_setstate (t : option codes * option cls * option bool) : mobj :=
    let '(i, c, l) := t in MObj i c l None.

  (** copy.copy(m), copy.deepcopy(m), pickle.loads(pickle.dumps(m)):
      message.py:321-325 *)
  Definition copy (m : mobj) : mobj := b_setstate (b_getstate m).

  (** An operation on the contents: reading a header, as_string (message.py:269-284),
      as_bytes (caches.py:162), add_sb_headers (message.py:344) *)
  Definition b_read {B} (f : C -> res B) (m : mobj) : res B :=
    match b_in m with Some c => f c | None => Err AttributeError end.

  (** tokenizer.py:1127-1133 on a message *)
  Definition b_tokens (tok : C -> gen) (m : mobj) : gen :=
    match b_in m with Some c => tok c | None => ([], Some AttributeError) end.
End copy.

Section put.
  Context {C T : Type}.
  Notation msg := (msg C T).
  Notation cache := (cache msg).

  (** What [value.as_bytes()] gives, caches.py:162: it may raise *)
  Context (as_bytes : msg -> res codes).

  (** caches.py:154-162, FileCache.put: the file is opened, which makes it empty,
      before the message is converted *)
  Definition file_put_e (matches : codes -> bool) (k : key) (m : msg) : M cache unit := fun c =>
    match k with
    | None => (c, Err TypeError)
    | Some f =>
        if matches f
        then mbind (naive_put k m) (fun _ c =>
               match as_bytes m with
               | Ok b => (Cache (k_class c) (k_keys c) (k_data c) (k_max c) (<[f := b]> (k_dir c)), Ok tt)
               | Err e => (Cache (k_class c) (k_keys c) (k_data c) (k_max c) (<[f := []]> (k_dir c)), Err e)
               end) c
        else (c, Err ValueError)
    end.

  (** The method put of the object's class, caches.py:88 and 154 *)
  Definition k_put_e (k : key) (m : msg) : M cache unit := fun c =>
    match k_class c with Naive => naive_put k m c | File matches _ => file_put_e matches k m c end.

  (** The calls of a program, caches.py:88, 102, 154 and 170; an exception does not
      end it *)
  Definition run_kop_e (x : @kop C T) (c : cache) : cache :=
    match x with
    | KPut k m => fst (k_put_e k m c)
    | KPop k => fst (k_pop k c)
    | KGet _ => c
    end.

  (** Several calls in order, caches.py:88, 102, 154 and 170 *)
  Definition run_kops_e (xs : list (@kop C T)) (c : cache) : cache := foldl (fun c x => run_kop_e x c) c xs.

  (** base.py:150-161, add_message with observers: nothing is sent when put raises;
      [sent] are the messages sent so far *)
  Definition add_e (message_id : option codes) (m : msg) (emit_signal : bool) : M (cache * list msg) unit := fun w =>
    let k := match message_id with None => m_id m | Some s => Some s end in
    match k_put_e k m w.1 with
    | (c, Ok _) => ((c, if emit_signal then w.2 ++ [m] else w.2), Ok tt)
    | (c, Err e) => ((c, w.2), Err e)
    end.
End put.
