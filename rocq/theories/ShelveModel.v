(** * Model of ShelveClassifier, sbclassifier/classifiers/storage.py:180-329.
    The database behind [shelve.open] is a map from keys to values; every
    single assignment or deletion takes effect at once and in order (the
    buffering of particular dbm back ends is not modelled).  The flag is 'c'. *)
From Coq Require Import String.
From Verif Require Import Py NumModel ClassifierModel.

(** storage.py:106 *)
Definition STATE_KEY : codes := str "saved state".

(** The values the classifier puts into the database: the pair written at
    storage.py:237 and 302, and the triple written at storage.py:257. *)
Inductive dbval :=
  | DWord (r : winfo)
  | DState (version nspam nham : Z).

(** A single change of the database. (storage.py:237, 245, 257, 302) *)
Inductive dbwrite := DPut (k : codes) (v : dbval) | DDel (k : codes).

Notation database := (gmap codes dbval).

(** The effect of such a change, storage.py:237, 245, 257, 302 *)
Definition db_apply (d : database) (w : dbwrite) : database :=
  match w with DPut k v => <[k := v]> d | DDel k => delete k d end.

(** The attributes db, wordinfo, changed_words and deleted_words
    (storage.py:209-225), and a log of all changes made to the database through
    this object, oldest first. *)
Record sstore := SStore {
  s_db : database;
  s_mem : gmap pyword winfo;
  s_changed : gset pyword;
  s_deleted : gset pyword;
  s_log : list dbwrite
}.

(** shelve.Shelf encodes every key as UTF-8: [word.encode] does not exist on
    bytes and None, and fails on surrogates.  The encoding is injective, so the
    text itself serves as the key. (storage.py:237, 276, 302) *)
Definition is_surrogate (c : N) : bool := (55296 <=? c)%N && (c <=? 57343)%N.

(** storage.py:237, 245, 276, 302 *)
Definition shelf_key (w : pyword) : res codes :=
  match w with
  | WStr s => if existsb is_surrogate s then Err UnicodeEncodeError else Ok s
  | WBytes _ | WNone => Err AttributeError
  end.

(** One change of the database: [self.db[k] = v], [del self.db[k]]
    (storage.py:237, 245, 257, 302) *)
Definition db_write (x : dbwrite) : M sstore unit := fun st =>
  (SStore (db_apply (s_db st) x) (s_mem st) (s_changed st) (s_deleted st) (s_log st ++ [x]), Ok tt).

(** storage.py:256-257, _write_state_key *)
Definition write_state_key (nspam nham : Z) : M sstore unit :=
  db_write (DPut STATE_KEY (DState PICKLE_VERSION nspam nham)).

(** storage.py:265-281, _wordinfoget.  A stored pair becomes a record that is
    kept in memory; unpacking the stored triple into two counts raises
    ValueError (basic.py:162-163). *)
Definition shelve_get (w : pyword) : M sstore (option winfo) := fun st =>
  match s_mem st !! w with
  | Some r => (st, Ok (Some r))
  | None =>
      if decide (w ∈ s_deleted st) then (st, Ok None)
      else match shelf_key w with
           | Err e => (st, Err e)
           | Ok k =>
               match s_db st !! k with
               | None => (st, Ok None)
               | Some (DWord r) =>
                   (SStore (s_db st) (<[w := r]> (s_mem st)) (s_changed st) (s_deleted st) (s_log st),
                    Ok (Some r))
               | Some (DState _ _ _) => (st, Err ValueError)
               end
           end
  end.

(** storage.py:283-318, _wordinfoset *)
Definition shelve_set (w : pyword) (r : winfo) : M sstore unit := fun st =>
  if (spamcount r + hamcount r <=? 1)%Z
  then match shelf_key w with
       | Err e => (st, Err e)
       | Ok k =>
           let '(st, _) := db_write (DPut k (DWord r)) st in
           (SStore (s_db st) (delete w (s_mem st)) (s_changed st ∖ {[w]}) (s_deleted st ∖ {[w]})
                   (s_log st), Ok tt)
       end
  else (SStore (s_db st) (<[w := r]> (s_mem st)) ({[w]} ∪ s_changed st) (s_deleted st) (s_log st),
        Ok tt).

(** storage.py:320-324, _wordinfodel *)
Definition shelve_del (w : pyword) : M sstore unit := fun st =>
  match s_mem st !! w with
  | None => (st, Err KeyError)
  | Some _ => (SStore (s_db st) (delete w (s_mem st)) (s_changed st) ({[w]} ∪ s_deleted st) (s_log st),
               Ok tt)
  end.

(** The hooks of ShelveClassifier; storage.py:259-263, _post_training *)
Definition shelve_backend : backend sstore := {|
  bk_get := shelve_get;
  bk_set := shelve_set;
  bk_del := shelve_del;
  bk_post := write_state_key
|}.

(** storage.py:236-238: one round of the loop over the changed words *)
Definition store_changed (w : pyword) : M sstore unit := fun st =>
  match s_mem st !! w with
  | None => (st, Err KeyError)
  | Some r => match shelf_key w with
              | Err e => (st, Err e)
              | Ok k => db_write (DPut k (DWord r)) st
              end
  end.

(** storage.py:239-248: one round of the loop over the deleted words *)
Definition store_deleted (w : pyword) : M sstore unit := fun st =>
  match s_mem st !! w with
  | Some _ => (st, Err Exception3)
  | None => match shelf_key w with
            | Err e => (st, Err e)
            | Ok k => match s_db st !! k with
                      | None => (st, Ok tt)
                      | Some _ => db_write (DDel k) st
                      end
            end
  end.

Section shelve.
  Context {A : num} (it : set_order).
  Notation sobj := (obj A sstore).

  (** storage.py:227-254, store *)
  Definition shelve_store : M sobj unit := fun o =>
    on_store
      (mbind (fun st => mfor (it (elements (s_changed st))) store_changed st) (fun _ =>
       mbind (fun st => mfor (it (elements (s_deleted st))) store_deleted st) (fun _ =>
       mbind (fun st => (SStore (s_db st) (s_mem st) ∅ ∅ (s_log st), Ok tt)) (fun _ =>
       write_state_key (o_nspam o) (o_nham o))))) o.

  (** storage.py:201-225, load on an existing object, from the database d.  The
      first component of the value at the state key is compared with the version;
      a pair has its spam count there, and if that happens to be the version,
      unpacking the rest fails, also with ValueError. *)
  Definition shelve_load (d : database) : M sobj unit := fun o =>
    let attach := fun o => with_store o (SStore d (s_mem (o_store o)) (s_changed (o_store o))
                                   (s_deleted (o_store o)) (s_log (o_store o))) in
    let reset := fun o => with_store o (SStore d ∅ ∅ ∅ (s_log (o_store o))) in
    match d !! STATE_KEY with
    | Some (DState v s h) =>
        if (v =? PICKLE_VERSION)%Z then (reset (with_counts o s h), Ok tt)
        else (attach o, Err ValueError)
    | Some (DWord _) => (attach o, Err ValueError)
    | None => (reset (with_counts o 0 0), Ok tt)
    end.

  (** storage.py:190-195 with basic.py:79, 180-188: a new object on the database
      d (bigrams are off: the constructor does not offer the choice) *)
  Definition shelve_open (d : database) : sobj * res unit :=
    shelve_load d (c_new false (SStore d ∅ ∅ ∅ [])).

  (** storage.py:326-329, _wordinfokeys (up to the order of the keys) *)
  Definition shelve_keys (o : sobj) : res (gset codes) :=
    let keys := dom (s_db (o_store o)) in
    if decide (STATE_KEY ∈ keys) then Ok (keys ∖ {[STATE_KEY]}) else Err ValueError.

  (** What a program can do with the object: a call, store(), load() on the same
      object, or dropping it and opening the database again. (storage.py:190-254) *)
  Inductive sop := SCall (c : call) | SSave | SLoad | SReopen.

  (** One operation.  A re-opened object starts its own log; the logs are
      chained here so that the log lists all changes since the beginning. (storage.py:190-254) *)
  Definition run_sop (x : sop) (o : sobj) : sobj * outcome A :=
    match x with
    | SCall c => run_call shelve_backend it c o
    | SSave => let '(o, r) := shelve_store o in (o, ODone r)
    | SLoad => let '(o, r) := shelve_load (s_db (o_store o)) o in (o, ODone r)
    | SReopen => let '(o', r) := shelve_open (s_db (o_store o)) in
                 (with_store o' (SStore (s_db (o_store o')) (s_mem (o_store o'))
                                   (s_changed (o_store o')) (s_deleted (o_store o'))
                                   (s_log (o_store o) ++ s_log (o_store o'))), ODone r)
    end.

  (** Several operations in order, storage.py:190-254 *)
  Fixpoint run_sops (xs : list sop) (o : sobj) : sobj * list (outcome A) :=
    match xs with
    | [] => (o, [])
    | x :: xs =>
        let '(o, r) := run_sop x o in
        let '(o, rs) := run_sops xs o in (o, r :: rs)
    end.
End shelve.
