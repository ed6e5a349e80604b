(** * Reading a corpus: corpora/base.py:217-247 over corpora/caches.py
    The methods hand over to the cache.  The order of a dictionary and of a
    directory listing is a parameter.  Simplification: nobody else changes the
    directory while the generators of FileCache run. *)
From Verif Require Import Py CacheModel MessageModel.

Section read.
  Context {C T : Type} (em : emailpkg C).
  Notation msg := (msg C T).
  Notation cache := (cache msg).

  (** The order in which a dictionary or os.listdir (caches.py:148) gives keys *)
  Context (order : gset key -> list key).

  (** base.py:231-232 and 246-247 with caches.py:76-77, 82-83, 137-138 and 147-148,
      list(corpus) and list(corpus.keys()) *)
  Definition keys_list (c : cache) : list key := order (k_keyset c).

  (** base.py:240-241, [key in corpus]: the caches have no method __contains__, so
      Python compares the key with each element of the iterator of caches.py:76
      and 137 *)
  Definition contains (c : cache) (k : key) : bool :=
    existsb (fun k' => bool_decide (k' = k)) (keys_list c).

  (** caches.py:131-132 and 150-152 with message.py:149-157, _message_from_path with
      message_id: set_id may raise *)
  Definition file_value (f b : codes) : res msg :=
    match set_id (AStr f) (Mail None None None []) with
    | (m, Ok _) => Ok (Msg (g_id m) (parse em b) false None)
    | (_, Err e) => Err e
    end.

  (** The generator of caches.py:152: messages, then perhaps an exception *)
  Fixpoint file_values (d : gmap codes codes) (ks : list key) : list msg * option exn :=
    match ks with
    | [] => ([], None)
    | Some f :: ks =>
        match d !! f with
        | None => ([], Some OSErr)
        | Some b =>
            match file_value f b with
            | Err e => ([], Some e)
            | Ok m => let '(ms, e) := file_values d ks in (m :: ms, e)
            end
        end
    | None :: ks => ([], Some TypeError)
    end.

  (** base.py:234-235 with caches.py:85-86 and 150-152, values *)
  Definition k_values (c : cache) : list msg * option exn :=
    match k_class c with
    | Naive => (omap (fun k => k_data c !! k) (keys_list c), None)
    | File _ _ => file_values (k_dir c) (keys_list c)
    end.

  (** The program [for m in list(corpus.values()): corpus.remove_message(m, False)],
      base.py:163-175 and 234-235 *)
  Definition remove_values : M cache unit := fun c =>
    match k_values c with
    | (_, Some e) => (c, Err e)
    | (ms, None) => mfor ms (fun m => mbind (k_pop (m_id m)) (fun _ => mret tt)) c
    end.

  (** The program [for k in list(corpus): corpus.remove_message(corpus[k], False)],
      base.py:163-175, 223-229 and 246-247 *)
  Definition remove_by_key : M cache unit := fun c =>
    mfor (keys_list c) (fun k c =>
      match k_getitem em c k with
      | Ok m => mbind (k_pop (m_id m)) (fun _ => mret tt) c
      | Err e => (c, Err e)
      end) c.
End read.
