(** * Model of sbclassifier/corpora/base.py, corpora/filesystem.py and trainers.py
    Simplifications: tokenizing a message succeeds; the receivers of a signal
    are called in the order of connection and all of them are trainers (with
    one classifier); the attribute set by remember_trained (message.py:310) is
    not represented, nothing modelled here reads it. *)
From Verif Require Import Py NumModel ClassifierModel CacheModel.

(** The two signals, base.py:103 and 110 *)
Inductive sig := Added | Removed.

(** trainers.py:46-51, a Trainer with the corpora it was given; SpamTrainer and
    HamTrainer (trainers.py:98-99, 109-110) are the two values of [t_spam] *)
Record trainer := Trainer { t_spam : bool; t_corpora : list nat }.

Section corpus.
  Context {C T : Type} (em : emailpkg C).
  Context {A : num} {St : Type} (bk : backend St) (it : set_order).
  Context (tok : msg C T -> list pyword).
  Notation msg := (msg C T).
  Notation cache := (cache msg).
  Notation obj := (obj A St).

  (** base.py:139-140, [cache or NaiveCache(max_size=INFINITY)]; without an
      argument ([None]) also the latter.  [d] is the directory of the world. *)
  Definition corpus_new (c : option cache) (d : gmap codes codes) : cache :=
    match c with
    | Some c => if k_bool c then c else naive_new None (k_dir c)
    | None => naive_new None d
    end.

  (** filesystem.py:63-65, FileCorpus(directory, namefilter, cache_size) *)
  Definition file_corpus_new (matches : codes -> bool) (size : option Z) (d : gmap codes codes) : cache :=
    corpus_new (Some (file_new matches size d)) d.

  (** The objects of a program: the caches of its corpora, the classifier, the
      signals sent so far (base.py:161 and 175). *)
  Record world := World {
    w_corpora : list cache;
    w_class : obj;
    w_sent : list (sig * nat * msg)
  }.

  (** Assignments to the parts of the world (base.py:159, 161, 172, 175 and
      trainers.py:62) *)
  Definition w_set_cache (i : nat) (c : cache) (w : world) : world :=
    World (<[i := c]> (w_corpora w)) (w_class w) (w_sent w).
  (** trainers.py:62 *)
  Definition w_set_class (o : obj) (w : world) : world := World (w_corpora w) o (w_sent w).
  (** base.py:161, 175 *)
  Definition w_log (s : sig) (i : nat) (m : msg) (w : world) : world :=
    World (w_corpora w) (w_class w) (w_sent w ++ [(s, i, m)]).

  (** trainers.py:53-63, train: [message.key()] is evaluated first *)
  Definition train (t : trainer) (m : msg) : M world unit := fun w =>
    if m_has_key m
    then match learn bk it (SIter (tok m)) (t_spam t) (w_class w) with
         | (o, r) => (w_set_class o w, r)
         end
    else (w, Err AttributeError).

  (** base.py:161 and 175, sending a signal; trainers.py:49-51 connects the
      method train to both signals of each of the corpora *)
  Definition send (ts : list trainer) (s : sig) (i : nat) (m : msg) : M world unit := fun w =>
    mfor (filter (fun t => i ∈ t_corpora t) ts) (fun t => train t m) (w_log s i m w).

  (** A call of a cache method of the corpus i (base.py:159 and 172) *)
  Definition on_cache {B} (i : nat) (f : M cache B) : M world B := fun w =>
    match w_corpora w !! i with
    | Some c => match f c with (c, r) => (w_set_cache i c w, r) end
    | None => (w, Err IndexError)
    end.

  (** base.py:150-161, add_message *)
  Definition add_message (ts : list trainer) (i : nat) (m : msg) (message_id : option codes) (emit_signal : bool) :
      M world unit :=
    let k := match message_id with None => m_id m | Some s => Some s end in
    mbind (on_cache i (k_put em k m)) (fun _ =>
      if emit_signal then send ts Added i m else mret tt).

  (** base.py:163-175, remove_message *)
  Definition remove_message (ts : list trainer) (i : nat) (m : msg) (emit_signal : bool) : M world unit :=
    mbind (on_cache i (k_pop (m_id m))) (fun _ =>
      if emit_signal then send ts Removed i m else mret tt).

  (** A program's use of corpora, base.py:150 and 163 *)
  Inductive cop :=
    | CAdd (i : nat) (m : msg) (message_id : option codes) (emit : bool)
    | CRemove (i : nat) (m : msg) (emit : bool).

  (** One call, base.py:150 and 163 *)
  Definition run_cop (ts : list trainer) (x : cop) : M world unit :=
    match x with
    | CAdd i m id e => add_message ts i m id e
    | CRemove i m e => remove_message ts i m e
    end.

  (** Several calls in order (base.py:150 and 163); an exception does not end
      the program *)
  Definition run_cops (ts : list trainer) (xs : list cop) (w : world) : world :=
    foldl (fun w x => fst (run_cop ts x w)) w xs.

  (** ** Expiry *)
  (** filesystem.py:79-83, an ExpiryFileCorpus *)
  Record expiry := Expiry { e_cache : cache; e_before : F A; e_due : F A }.

  (** Assignment to expiry_due, filesystem.py:93 and 104 *)
  Definition e_set_due (due : F A) (e : expiry) : expiry := Expiry (e_cache e) (e_before e) due.

  (** filesystem.py:96-104, the loop over the keys; [clock n] is the n-th
      reading of time.time().  remove_message has no parameter do_training
      (base.py:163), so calling it with that keyword raises TypeError. *)
  Fixpoint expire_loop (stamp : T -> F A) (clock : nat -> F A) (n : nat) (ks : list key) : M expiry unit := fun e =>
    match ks with
    | [] => (e, Ok tt)
    | k :: ks =>
        match k_getitem em (e_cache e) k with
        | Err x => (e, Err x)
        | Ok m =>
            match m_stamp m with
            | None => (e, Err AttributeError)
            | Some t =>
                let end_time := nadd A (stamp t) (e_before e) in
                if nlt A end_time (clock n) then (e, Err TypeError)
                else expire_loop stamp clock (S n) ks
                       (if nlt A end_time (e_due e) then e_set_due end_time e else e)
            end
        end
    end.

  (** filesystem.py:85-104, remove_expired_messages; [ks] is the list of the
      keys in the order of the directory *)
  Definition remove_expired (stamp : T -> F A) (clock : nat -> F A) (ks : list key) : M expiry unit := fun e =>
    if nlt A (clock 0) (e_due e) then (e, Ok tt)
    else expire_loop stamp clock 2 ks (e_set_due (nadd A (clock 1) (e_before e)) e).
End corpus.
Global Arguments world C T A St : clear implicits.
Global Arguments World {C T A St} _ _ _.
Global Arguments expiry C T A : clear implicits.
Global Arguments Expiry {C T A} _ _ _.
