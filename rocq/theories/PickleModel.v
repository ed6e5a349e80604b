(** * Model of the pickle-backed classifier (classifiers/storage.py), of
    __getstate__/__setstate__ (classifiers/basic.py) and of safepickle.py

    The byte format of the pickle module is not modelled: a [codec] is any pair
    of functions; the laws the theorems need are stated in PickleSpec.v. *)
From Verif Require Import Py NumModel ClassifierModel.

(** The contents of a file, safepickle.py:20-34 *)
Definition bytes := codes.

(** basic.py:191, the tuple (PICKLE_VERSION, wordinfo, nspam, nham) *)
Record pstate := PState {
  p_version : Z;
  p_words : gmap pyword winfo;
  p_nspam : Z;
  p_nham : Z
}.

(** [pickle.dump] of a classifier with a given state tuple, and the state tuple
    found by [pickle.load] in the contents of a file (None: it raises). (safepickle.py:24, 33) *)
Record codec := Codec { dumps : pstate -> bytes; loads : bytes -> option pstate }.

Section pickle.
  Context {A : num} (c : codec).
  Notation mstore := (gmap pyword winfo).
  Notation mobj := (obj A mstore).

  (** basic.py:190-191, __getstate__ *)
  Definition getstate (o : mobj) : pstate :=
    PState PICKLE_VERSION (o_store o) (o_nspam o) (o_nham o).

  (** basic.py:193-197, __setstate__ *)
  Definition setstate (t : pstate) : M mobj unit := fun o =>
    if (p_version t =? PICKLE_VERSION)%Z
    then (Obj (o_bigrams o) (p_nspam t) (p_nham t) ∅ (p_words t), Ok tt)
    else (o, Err ValueError).

  (** An object as pickle creates it, without calling __init__: it has no
      attributes.  Only the absence of _use_bigrams is represented; the other
      attributes are set by __setstate__ before anything can read them. (safepickle.py:24) *)
  Definition blank : mobj := Obj None 0 0 ∅ ∅.

  (** pickle.load of a classifier: create a blank object, call __setstate__ (safepickle.py:24) *)
  Definition unpickle (b : bytes) : res mobj :=
    match loads c b with
    | None => Err UnpicklingError
    | Some t => match setstate t blank with
                | (o, Ok _) => Ok o
                | (_, Err e) => Err e
                end
    end.

  (** pickle.dump (safepickle.py:33) *)
  Definition pickle (o : mobj) : bytes := dumps c (getstate o).

  (** safepickle.py:20-24, pickle_read, on a file with the given contents (None:
      there is no such file); [fault] is an exception raised by the lock or by
      the file system. *)
  Definition pickle_read (fault : option exn) (file : option bytes) : res mobj :=
    match fault with
    | Some e => Err e
    | None => match file with
              | None => Err OSErr
              | Some b => unpickle b
              end
    end.

  (** storage.py:143-172, load: every exception of pickle_read is swallowed (and
      then the probability cache is kept) *)
  Definition pickle_load (fault : option exn) (file : option bytes) : M mobj unit := fun o =>
    match pickle_read fault file with
    | Err _ => (Obj (o_bigrams o) 0 0 (o_cache o) ∅, Ok tt)
    | Ok temp => setstate (getstate temp) o
    end.

  (** storage.py:138-141, __init__ (bigrams are off: the constructor does not
      offer the choice) *)
  Definition pickle_open (fault : option exn) (file : option bytes) : mobj * res unit :=
    pickle_load fault file (c_new false ∅).

  (** storage.py:174-177, store, when nothing fails: the new contents of the file *)
  Definition pickle_store (o : mobj) : option bytes := Some (pickle o).

  (** What a program can do with the object and its file. (storage.py:138-177) *)
  Inductive pop := PCall (x : call) | PStore | PLoad | PReopen.

  (** One such operation, storage.py:138-177 *)
  Definition run_pop (it : set_order) (x : pop) (wo : option bytes * mobj)
      : (option bytes * mobj) * outcome A :=
    let '(file, o) := wo in
    match x with
    | PCall x => let '(o, r) := run_call mem_backend it x o in ((file, o), r)
    | PStore => ((pickle_store o, o), ODone (Ok tt))
    | PLoad => let '(o, r) := pickle_load None file o in ((file, o), ODone r)
    | PReopen => let '(o, r) := pickle_open None file in ((file, o), ODone r)
    end.

  (** Several in order, storage.py:138-177 *)
  Fixpoint run_pops (it : set_order) (xs : list pop) (wo : option bytes * mobj)
      : (option bytes * mobj) * list (outcome A) :=
    match xs with
    | [] => (wo, [])
    | x :: xs =>
        let '(wo, r) := run_pop it x wo in
        let '(wo, rs) := run_pops it xs wo in (wo, r :: rs)
    end.
End pickle.

(** ** pickle_write as a sequence of file system steps *)

(** The database file and the temporary file (None: it does not exist). (safepickle.py:32-34) *)
Record fs := FS { f_db : option bytes; f_tmp : option bytes }.

(** safepickle.py:32-34 *)
Inductive fstep :=
  | TmpCreate                (** safepickle.py:32, NamedTemporaryFile(delete=False) *)
  | TmpAppend (b : bytes)    (** safepickle.py:33, one write of pickle.dump *)
  | Rename                   (** safepickle.py:34, shutil.move: os.rename *)
  | DbTruncate               (** shutil.move across file systems: open(dst, 'wb') *)
  | DbAppend (b : bytes)     (** shutil.move across file systems: one block copied *)
  | TmpUnlink.               (** shutil.move across file systems: os.unlink(src) *)

(** The effect of a step, safepickle.py:32-34 *)
Definition fs_apply (s : fs) (x : fstep) : fs :=
  match x with
  | TmpCreate => FS (f_db s) (Some [])
  | TmpAppend b => FS (f_db s) ((fun t => t ++ b) <$> f_tmp s)
  | Rename => match f_tmp s with Some t => FS (Some t) None | None => s end
  | DbTruncate => FS (Some []) (f_tmp s)
  | DbAppend b => FS ((fun t => t ++ b) <$> f_db s) (f_tmp s)
  | TmpUnlink => FS (f_db s) None
  end.

(** safepickle.py:27-34, pickle_write inside the lock.  [chunks] are the
    separate writes of pickle.dump; [copied] the blocks of the copy that
    shutil.move makes when the temporary directory is on another file system. *)
Definition write_steps (same_fs : bool) (chunks copied : list bytes) : list fstep :=
  TmpCreate :: (TmpAppend <$> chunks) ++
  (if same_fs then [Rename] else DbTruncate :: (DbAppend <$> copied) ++ [TmpUnlink]).

(** ** Processes that use pickle_read and pickle_write (safepickle.py:20-34) *)

(** A program: reads and writes of the one file, continuing with the outcome.
    The contents are raw bytes; decoding them is left to the continuation.
    Calls of safepickle.py:20-34 *)
Inductive prog :=
  | PDone
  | PRead (k : res bytes -> prog)
  | PWrite (b : bytes) (k : res unit -> prog).

(** Where a process is.  The lock is held in the phases [InRead], [InWrite] and
    [Leave]. (safepickle.py:20-34) *)
Inductive phase :=
  | Ready (p : prog)                            (** outside the with statement *)
  | InRead (acc : option bytes) (k : res bytes -> prog)
      (** safepickle.py:22-24; None: not opened yet, otherwise what was read so far *)
  | InWrite (todo : list fstep) (tmp : option bytes) (b : bytes) (k : res unit -> prog)
      (** safepickle.py:29-34, the remaining steps and the private temporary file *)
  | Leave (p : prog)                            (** about to release the lock *)
  | Dead.

(** What happened: reads with their outcome and completed writes. (safepickle.py:20-34) *)
Inductive event := EvRead (i : nat) (r : res bytes) | EvWrite (i : nat) (b : bytes).

(** The file, the lock and the processes, safepickle.py:20-34 *)
Record sys := Sys {
  sys_db : option bytes;
  sys_lock : option nat;
  sys_procs : nat -> phase;
  sys_log : list event
}.

(** A schedule: process i makes its next step (reading at most n+1 bytes where
    that applies), gives up waiting for the lock, or dies. (safepickle.py:20-34) *)
Inductive move := MStep (i n : nat) | MTimeout (i : nat) | MKill (i : nat).

(** Process i of safepickle.py:20-34 moves on *)
Definition set_proc (f : nat -> phase) (i : nat) (p : phase) : nat -> phase :=
  fun j => if Nat.eqb j i then p else f j.

Section system.
  (** How each process' writes are broken into steps (see [write_steps]). *)
  Context (plan : nat -> bytes -> list fstep).

  (** lockfile.FileLock: acquiring succeeds only if nobody holds the lock; the
      timeout is raised only while somebody does; the lock of a dead process
      stays (the lock is a file). One step of a process, safepickle.py:20-34 *)
  Definition sys_step (s : sys) (m : move) : sys :=
    match m with
    | MKill i => Sys (sys_db s) (sys_lock s) (set_proc (sys_procs s) i Dead) (sys_log s)
    | MTimeout i =>
        match sys_lock s, sys_procs s i with
        | Some _, Ready (PRead k) =>
            Sys (sys_db s) (sys_lock s) (set_proc (sys_procs s) i (Ready (k (Err LockTimeout)))) (sys_log s)
        | Some _, Ready (PWrite b k) =>
            Sys (sys_db s) (sys_lock s) (set_proc (sys_procs s) i (Ready (k (Err LockTimeout)))) (sys_log s)
        | _, _ => s
        end
    | MStep i n =>
        match sys_procs s i with
        | Ready PDone | Dead => s
        | Ready (PRead k) =>
            match sys_lock s with
            | None => Sys (sys_db s) (Some i) (set_proc (sys_procs s) i (InRead None k)) (sys_log s)
            | Some _ => s
            end
        | Ready (PWrite b k) =>
            match sys_lock s with
            | None => Sys (sys_db s) (Some i) (set_proc (sys_procs s) i (InWrite (plan i b) None b k)) (sys_log s)
            | Some _ => s
            end
        | InRead None k =>
            match sys_db s with
            | None => Sys (sys_db s) (sys_lock s) (set_proc (sys_procs s) i (Leave (k (Err OSErr))))
                          (sys_log s ++ [EvRead i (Err OSErr)])
            | Some _ => Sys (sys_db s) (sys_lock s) (set_proc (sys_procs s) i (InRead (Some []) k)) (sys_log s)
            end
        | InRead (Some acc) k =>
            match drop (length acc) (default [] (sys_db s)) with
            | [] => Sys (sys_db s) (sys_lock s) (set_proc (sys_procs s) i (Leave (k (Ok acc))))
                        (sys_log s ++ [EvRead i (Ok acc)])
            | rest => Sys (sys_db s) (sys_lock s)
                          (set_proc (sys_procs s) i (InRead (Some (acc ++ take (S n) rest)) k)) (sys_log s)
            end
        | InWrite [] tmp b k =>
            Sys (sys_db s) (sys_lock s) (set_proc (sys_procs s) i (Leave (k (Ok tt))))
                (sys_log s ++ [EvWrite i b])
        | InWrite (x :: todo) tmp b k =>
            let f := fs_apply (FS (sys_db s) tmp) x in
            Sys (f_db f) (sys_lock s) (set_proc (sys_procs s) i (InWrite todo (f_tmp f) b k)) (sys_log s)
        | Leave p => Sys (sys_db s) None (set_proc (sys_procs s) i (Ready p)) (sys_log s)
        end
    end.

  (** safepickle.py:20-34 under a schedule *)
  Definition sys_run (ms : list move) (s : sys) : sys := foldl sys_step s ms.
End system.

(** All processes start outside the lock. (safepickle.py:20-34) *)
Definition sys_init (db : option bytes) (progs : nat -> prog) : sys :=
  Sys db None (fun i => Ready (progs i)) [].

(** A process that loads a classifier, learns one message and stores it:
    storage.py:138-177 over safepickle.py, exceptions of the read swallowed. *)
Definition train_prog (A : num) (c : codec) (it : set_order) (s : stream) (is_spam : bool) : prog :=
  PRead (fun r =>
    let o := fst (match r with
                  | Ok b => pickle_load (A:=A) c None (Some b) (c_new false ∅)
                  | Err e => pickle_load (A:=A) c (Some e) None (c_new false ∅)
                  end) in
    let o := fst (learn mem_backend it s is_spam o) in
    PWrite (pickle c o) (fun _ => PDone)).
