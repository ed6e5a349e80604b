(** * Specification of corpora, trainers and expiry *)
From Verif Require Import Py NumModel ClassifierModel CacheModel CorpusModel.

Section spec.
  Context {C T : Type}.
  Notation msg := (msg C T).
  Notation cop := (@cop C T).

  (** The key under which a message is added. *)
  Definition key_of (m : msg) (message_id : option codes) : key :=
    match message_id with Some s => Some s | None => m_id m end.

  (** The messages a corpus should hold after a history of calls: adding sets
      the entry of the key, removing clears the entry of the message's id. *)
  Definition contents_step (i : nat) (mm : gmap key msg) (x : cop) : gmap key msg :=
    match x with
    | CAdd j m id _ => if decide (j = i) then <[key_of m id := m]> mm else mm
    | CRemove j m _ => if decide (j = i) then delete (m_id m) mm else mm
    end.

  Definition contents (i : nat) (xs : list cop) : gmap key msg := foldl (contents_step i) ∅ xs.

  (** What a user of the cache sees is the given dictionary. *)
  Definition holds (em : emailpkg C) (c : cache msg) (mm : gmap key msg) : Prop :=
    (forall k, k_getitem em c k = match mm !! k with Some m => Ok m | None => Err KeyError end) /\
    k_len c = size mm /\ k_keyset c = dom mm.

  (** The signals a history should send, in order. *)
  Definition signals (xs : list cop) : list (sig * nat * msg) :=
    omap (fun x => match x with
                   | CAdd i m _ true => Some (Added, i, m)
                   | CRemove i m true => Some (Removed, i, m)
                   | _ => None
                   end) xs.

  (** The corpus of a call exists. *)
  Definition in_range (n : nat) (x : cop) : Prop :=
    match x with CAdd i _ _ _ | CRemove i _ _ => i < n end.

  Definition cop_msg (x : cop) : msg := match x with CAdd _ m _ _ | CRemove _ m _ => m end.

  (** The calls of learn, one for every signal and every trainer of the corpus. *)
  Definition trainings (tok : msg -> list pyword) (ts : list trainer) (xs : list cop) : list call :=
    flat_map (fun s => (fun t => CLearn (SIter (tok s.2)) (t_spam t)) <$> filter (fun t => s.1.2 ∈ t_corpora t) ts)
      (signals xs).

  (** The number of learn calls with the label. *)
  Fixpoint learns (b : bool) (cs : list call) : Z :=
    match cs with
    | [] => 0
    | CLearn _ b' :: cs => (if eqb b b' then 1 else 0) + learns b cs
    | _ :: cs => learns b cs
    end.

  (** All corpora of the program are new unlimited in-memory ones. *)
  Definition fresh_world {A St} (w : world C T A St) : Prop :=
    forall i c, w_corpora w !! i = Some c -> exists d, c = naive_new None d.

  (** The order of the times. *)
  Definition le (A : num) (x y : F A) : Prop := nlt A y x = false.

  (** The message with this key has a time stamp and has not expired at the
      time read for the key number j (the first n readings precede the keys). *)
  Definition alive (em : emailpkg C) {A : num} (stamp : T -> F A) (clock : nat -> F A) (e : expiry C T A)
      (n j : nat) (k : key) : Prop :=
    exists m t, k_getitem em (e_cache e) k = Ok m /\ m_stamp m = Some t /\
      nlt A (nadd A (stamp t) (e_before e)) (clock (n + j)) = false.
End spec.
