(** * Model of sbclassifier/corpora/caches.py
    Simplifications: a directory is a flat map from file names to contents, so
    keys are taken to be plain file names; subdirectories are left out (they are
    never listed, caches.py:128); operations on existing or new files of the
    directory succeed.  Messages are values: a program that changes a message
    object after putting it into a cache is not modelled. *)
From Verif Require Import Py.

(** A message object: the id (message.py:185, None if not set), the contents,
    and whether its class defines the methods key (trainers.py:74) and
    createTimestamp (filesystem.py:96; the time it returns).  The package's own
    class defines neither, message.py:172-561. *)
Record msg (C T : Type) := Msg {
  m_id : option codes;
  m_content : C;
  m_has_key : bool;
  m_stamp : option T
}.
Global Arguments Msg {C T} _ _ _ _.
Global Arguments m_id {C T} _.
Global Arguments m_content {C T} _.
Global Arguments m_has_key {C T} _.
Global Arguments m_stamp {C T} _.

(** [as_bytes] and [email.message_from_bytes] of the email package, as used at
    caches.py:162 and message.py:155 *)
Record emailpkg (C : Type) := EmailPkg { as_bytes : C -> codes; parse : codes -> C }.
Global Arguments as_bytes {C} _ _.
Global Arguments parse {C} _ _.

(** A key: the id of a message may be None, base.py:157 *)
Notation key := (option codes).

(** The class of a cache object: caches.py:53, NaiveCache; caches.py:114,
    FileCache, with the predicate [fnmatch(name, namefilter)] and the attribute
    num_files *)
Inductive klass := Naive | File (matches : codes -> bool) (num_files : nat).

(** A cache object, caches.py:65-71 and 118-125; [k_max = None] is INFINITY.
    The last component is the directory.  The order of the dictionary is not
    represented. *)
Record cache (M : Type) := Cache {
  k_class : klass;
  k_keys : list key;
  k_data : gmap key M;
  k_max : option Z;
  k_dir : gmap codes codes
}.
Global Arguments Cache {M} _ _ _ _ _.
Global Arguments k_class {M} _.
Global Arguments k_keys {M} _.
Global Arguments k_data {M} _.
Global Arguments k_max {M} _.
Global Arguments k_dir {M} _.

Section cache.
  Context {C T : Type} (em : emailpkg C).
  Notation msg := (msg C T).
  Notation cache := (cache msg).

  (** caches.py:65-71, NaiveCache(max_size), in a world with the directory d *)
  Definition naive_new (max : option Z) (d : gmap codes codes) : cache := Cache Naive [] ∅ max d.

  (** caches.py:127-129, _is_message, for all files of the directory *)
  Definition message_files (matches : codes -> bool) (d : gmap codes codes) : gset codes :=
    filter (fun f => matches f = true) (dom d).

  (** caches.py:118-125, FileCache(directory, namefilter, max_size) *)
  Definition file_new (matches : codes -> bool) (max : option Z) (d : gmap codes codes) : cache :=
    Cache (File matches (size (message_files matches d))) [] ∅ max d.

  (** caches.py:73-74 and 134-135, __len__ *)
  Definition k_len (c : cache) : nat :=
    match k_class c with Naive => size (k_data c) | File _ n => n end.

  (** The truth value of a cache is [len(cache) != 0], base.py:140 *)
  Definition k_bool (c : cache) : bool := negb (k_len c =? 0).

  (** caches.py:76-77, 82-83, 137-138 and 147-148, __iter__ and keys (up to order) *)
  Definition k_keyset (c : cache) : gset key :=
    match k_class c with
    | Naive => dom (k_data c)
    | File matches _ => set_map Some (message_files matches (k_dir c))
    end.

  (** caches.py:131-132 with message.py:149-157, _message_from_path without
      message_id: the new message has no id *)
  Definition from_path (b : codes) : msg := Msg None (parse em b) false None.

  (** caches.py:79-80 and 140-145, __getitem__ *)
  Definition k_getitem (c : cache) (k : key) : res msg :=
    match k_data c !! k with
    | Some m => Ok m
    | None =>
        match k_class c, k with
        | File matches _, Some f =>
            match k_dir c !! f with
            | Some b => if matches f then Ok (from_path b) else Err KeyError
            | None => Err KeyError
            end
        | _, _ => Err KeyError
        end
    end.

  (** caches.py:99-100 and 164-168, get *)
  Definition k_get (c : cache) (k : key) (dflt : option msg) : res (option msg) :=
    match k_getitem c k with
    | Ok m => Ok (Some m)
    | Err KeyError => Ok dflt
    | Err e => Err e
    end.

  (** caches.py:104-109: [_keys.pop(_keys.index(key))], the first occurrence *)
  Fixpoint remove_first (k : key) (l : list key) : list key :=
    match l with
    | [] => []
    | x :: l => if decide (x = k) then l else x :: remove_first k l
    end.

  (** caches.py:102-111, NaiveCache.pop *)
  Definition naive_pop (k : key) : M cache (option msg) := fun c =>
    (Cache (k_class c) (remove_first k (k_keys c)) (delete k (k_data c)) (k_max c) (k_dir c),
     Ok (k_data c !! k)).

  (** caches.py:170-178, FileCache.pop: joining a path with None raises *)
  Definition file_pop (k : key) : M cache (option msg) := fun c =>
    mbind (naive_pop k) (fun r c =>
      match k with
      | None => (c, Err TypeError)
      | Some f => (Cache (k_class c) (k_keys c) (k_data c) (k_max c) (delete f (k_dir c)), Ok r)
      end) c.

  (** The method pop of the object's class, caches.py:102 and 170 *)
  Definition k_pop (k : key) : M cache (option msg) := fun c =>
    match k_class c with Naive => naive_pop k c | File _ _ => file_pop k c end.

  (** caches.py:88-97, NaiveCache.put; [self.pop] is the method of the object's
      class *)
  Definition naive_put (k : key) (m : msg) : M cache unit := fun c =>
    let c := Cache (k_class c) (k_keys c ++ [k]) (<[k := m]> (k_data c)) (k_max c) (k_dir c) in
    match k_max c, k_keys c with
    | Some max, k0 :: _ =>
        if (max <? Z.of_nat (length (k_keys c)))%Z
        then mbind (k_pop k0) (fun _ => mret tt) c
        else (c, Ok tt)
    | _, _ => (c, Ok tt)
    end.

  (** caches.py:154-162, FileCache.put: fnmatch of None raises TypeError *)
  Definition file_put (matches : codes -> bool) (k : key) (m : msg) : M cache unit := fun c =>
    match k with
    | None => (c, Err TypeError)
    | Some f =>
        if matches f
        then mbind (naive_put k m) (fun _ c =>
               (Cache (k_class c) (k_keys c) (k_data c) (k_max c)
                  (<[f := as_bytes em (m_content m)]> (k_dir c)), Ok tt)) c
        else (c, Err ValueError)
    end.

  (** The method put of the object's class, caches.py:88 and 154 *)
  Definition k_put (k : key) (m : msg) : M cache unit := fun c =>
    match k_class c with Naive => naive_put k m c | File matches _ => file_put matches k m c end.

  (** A program's use of a cache: the methods of caches.py:79-111, 140-178 *)
  Inductive kop := KPut (k : key) (m : msg) | KPop (k : key) | KGet (k : key).

  (** One call, caches.py:79-111, 140-178; an exception does not end the program *)
  Definition run_kop (x : kop) (c : cache) : cache :=
    match x with
    | KPut k m => fst (k_put k m c)
    | KPop k => fst (k_pop k c)
    | KGet _ => c
    end.

  (** Several calls in order, caches.py:79-111, 140-178 *)
  Definition run_kops (xs : list kop) (c : cache) : cache := foldl (fun c x => run_kop x c) c xs.
End cache.
