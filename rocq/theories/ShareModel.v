(** * Model of several processes with ShelveClassifier objects on one database,
    sbclassifier/classifiers/storage.py:180-329.
    The database offers single atomic operations on keys (membership, reading,
    assignment, deletion) whose effect every process sees at once; what
    particular dbm back ends do beyond that (locks, buffers) is not modelled.
    Between any two such operations of one process the others may do anything. *)
From Coq Require Import String.
From Verif Require Import Py NumModel ClassifierModel ShelveModel.

(** A process: its object's attributes (storage.py:209-225) and the contents of
    the database its coming operations on the database will find. *)
Notation pstore := (sstore * list database)%type.

(** Not a Python exception: the process has not yet been given the operation on
    the database it needs next.  (storage.py:209-257, 276, 302: there is no
    handler that could catch it.) *)
Definition PAUSED : exn := OtherError 0.

(** One operation on the database, storage.py:209, 210, 237, 245, 257, 276, 302 *)
Definition access {B} (m : M sstore B) : M pstore B := fun '(st, env) =>
  match env with
  | [] => ((st, []), Err PAUSED)
  | d :: env =>
      let '(st, r) := m (SStore d (s_mem st) (s_changed st) (s_deleted st) (s_log st)) in
      ((st, env), r)
  end.

(** Work on the object's own attributes only, storage.py:270-281, 303-324 *)
Definition own {B} (m : M sstore B) : M pstore B := fun '(st, env) =>
  let '(st, r) := m st in ((st, env), r).

(** [k in self.db], storage.py:210, 276 *)
Definition db_has (k : codes) : M sstore bool := fun st =>
  (st, Ok (bool_decide (is_Some (s_db st !! k)))).

(** [self.db[k]], storage.py:211, 276 *)
Definition db_read (k : codes) : M sstore dbval := fun st =>
  (st, match s_db st !! k with Some v => Ok v | None => Err KeyError end).

(** storage.py:265-281, _wordinfoget.  [self.db.get(word)] of shelve.Shelf looks
    whether the key is there and then reads it: two operations on the database. *)
Definition shared_get (w : pyword) : M pstore (option winfo) := fun '(st, env) =>
  match s_mem st !! w with
  | Some r => ((st, env), Ok (Some r))
  | None =>
      if decide (w ∈ s_deleted st) then ((st, env), Ok None)
      else match shelf_key w with
           | Err e => ((st, env), Err e)
           | Ok k =>
               mbind (access (db_has k)) (fun there : bool =>
                 if there
                 then mbind (access (db_read k)) (fun v =>
                        match v with
                        | DWord r => own (fun st =>
                            (SStore (s_db st) (<[w := r]> (s_mem st)) (s_changed st) (s_deleted st)
                                    (s_log st), Ok (Some r)))
                        | DState _ _ _ => merr ValueError
                        end)
                 else mret None) (st, env)
           end
  end.

(** storage.py:283-318, _wordinfoset: at most one operation on the database *)
Definition shared_set (w : pyword) (r : winfo) : M pstore unit :=
  if (spamcount r + hamcount r <=? 1)%Z
  then match shelf_key w with
       | Err e => merr e
       | Ok _ => access (shelve_set w r)
       end
  else own (shelve_set w r).

(** The hooks of ShelveClassifier; storage.py:259-324 *)
Definition shared_backend : backend pstore := {|
  bk_get := shared_get;
  bk_set := shared_set;
  bk_del w := own (shelve_del w);
  bk_post s h := access (write_state_key s h)
|}.

(** storage.py:236-238: one round of the loop over the changed words *)
Definition shared_changed (w : pyword) : M pstore unit := fun '(st, env) =>
  match s_mem st !! w with
  | None => ((st, env), Err KeyError)
  | Some r => match shelf_key w with
              | Err e => ((st, env), Err e)
              | Ok k => access (db_write (DPut k (DWord r))) (st, env)
              end
  end.

(** storage.py:239-248: one round of the loop over the deleted words *)
Definition shared_deleted (w : pyword) : M pstore unit := fun '(st, env) =>
  match s_mem st !! w with
  | Some _ => ((st, env), Err Exception3)
  | None => match shelf_key w with
            | Err e => ((st, env), Err e)
            | Ok k => access (store_deleted w) (st, env)
            end
  end.

Section shared.
  Context {A : num} (it : set_order).
  Notation pobj := (obj A pstore).

  (** storage.py:227-254, store *)
  Definition shared_store : M pobj unit := fun o =>
    on_store
      (mbind (fun '(st, env) => mfor (it (elements (s_changed st))) shared_changed (st, env)) (fun _ =>
       mbind (fun '(st, env) => mfor (it (elements (s_deleted st))) shared_deleted (st, env)) (fun _ =>
       mbind (own (fun st => (SStore (s_db st) (s_mem st) ∅ ∅ (s_log st), Ok tt))) (fun _ =>
       access (write_state_key (o_nspam o) (o_nham o)))))) o.

  (** storage.py:201-225, load: the question whether the state key is there,
      and reading it, are two operations on the database. *)
  Definition shared_load : M pobj unit := fun o =>
    let fresh := fun o => on_store (own (fun st =>
                   (SStore (s_db st) ∅ ∅ ∅ (s_log st), Ok tt))) o in
    mbind (on_store (access (db_has STATE_KEY))) (fun there : bool =>
      if there
      then mbind (on_store (access (db_read STATE_KEY))) (fun v o =>
             match v with
             | DState v s h => if (v =? PICKLE_VERSION)%Z then fresh (with_counts o s h)
                               else (o, Err ValueError)
             | DWord _ => (o, Err ValueError)
             end)
      else fun o => fresh (with_counts o 0 0)) o.

  (** What a process can do, as in [run_sop]; storage.py:190-254.  A re-opened
      object is a new one (storage.py:190-195, basic.py:180-188). *)
  Definition run_shared_op (x : sop) (o : pobj) : pobj * outcome A :=
    match x with
    | SCall c => run_call shared_backend it c o
    | SSave => let '(o, r) := shared_store o in (o, ODone r)
    | SLoad => let '(o, r) := shared_load o in (o, ODone r)
    | SReopen =>
        let '(st, env) := o_store o in
        let '(o, r) := shared_load (c_new false (SStore (s_db st) ∅ ∅ ∅ (s_log st), env)) in
        (o, ODone r)
    end.

  (** The process stands in the middle of the operation (see [PAUSED]);
      basic.py:212-321, storage.py:201-254 *)
  Definition unfinished (r : outcome A) : bool :=
    match r with
    | ODone (Err e) | OScore (Err e) => bool_decide (e = PAUSED)
    | _ => false
    end.

  (** The operations of one process in order, up to the one in the middle of
      which it stands; storage.py:190-254 *)
  Fixpoint run_shared (xs : list sop) (o : pobj) : pobj * list (outcome A) :=
    match xs with
    | [] => (o, [])
    | x :: xs =>
        let '(o, r) := run_shared_op x o in
        if unfinished r then (o, [])
        else let '(o, rs) := run_shared xs o in (o, r :: rs)
    end.

  (** A process that opens the database and performs the operations; its
      operations on the database find the contents [seen], one after another.
      storage.py:190-254 *)
  Definition process (xs : list sop) (seen : list database) : pobj * list (outcome A) :=
    run_shared (SReopen :: xs) (c_new false (SStore ∅ ∅ ∅ ∅ [], seen)).

  (** All processes: the database, and for every process what it is to do
      and what its operations on the database have found so far.
      storage.py:190-254 *)
  Record world := World { w_db : database; w_procs : list (list sop * list database) }.

  (** The process [i] makes its next operation on the database, if it has one
      left; storage.py:209, 210, 237, 245, 257, 276, 302 *)
  Definition step (w : world) (i : nat) : world :=
    match w_procs w !! i with
    | None => w
    | Some (xs, seen) =>
        let seen := seen ++ [w_db w] in
        match o_store (fst (process xs seen)) with
        | (st, []) => World (s_db st) (<[i := (xs, seen)]> (w_procs w))
        | _ => w
        end
    end.

  (** Any number of processes, started on the database [d] and scheduled in an
      arbitrary way; storage.py:190-254 *)
  Definition together (d : database) (progs : list (list sop)) (schedule : list nat) : world :=
    foldl step (World d ((fun xs => (xs, [])) <$> progs)) schedule.

  (** What process [i] has seen its finished operations do; storage.py:190-254 *)
  Definition outcomes (w : world) (i : nat) : list (outcome A) :=
    match w_procs w !! i with
    | None => []
    | Some (xs, seen) => snd (process xs seen)
    end.

  (** Process [i] has done everything it was to do; storage.py:190-254 *)
  Definition finished (w : world) (i : nat) : bool :=
    match w_procs w !! i with
    | None => true
    | Some (xs, _) => (length (outcomes w i) =? S (length xs))%nat
    end.
End shared.
