(** * Specification vocabulary for pickled classifiers *)
From Verif Require Import Py NumModel ClassifierModel PickleModel.

(** What is assumed of the pickle module: reading gives back what was written,
    and a file that was cut short does not load. *)
Definition codec_ok (c : codec) : Prop :=
  (forall t, loads c (dumps c t) = Some t) /\
  (forall t b rest, dumps c t = b ++ rest -> rest <> [] -> loads c b = None).

(** Every load or re-open happens when nothing was trained since the last
    store; [dirty] says whether something was. *)
Fixpoint ptidy (dirty : bool) (xs : list pop) : Prop :=
  match xs with
  | [] => True
  | PCall (CScore _) :: xs => ptidy dirty xs
  | PCall _ :: xs => ptidy true xs
  | PStore :: xs => ptidy false xs
  | PLoad :: xs | PReopen :: xs => dirty = false /\ ptidy dirty xs
  end.

Fixpoint pcalls (xs : list pop) : list call :=
  match xs with
  | [] => []
  | PCall x :: xs => x :: pcalls xs
  | _ :: xs => pcalls xs
  end.

(** [rs] are the outcomes of [xs], where the calls have the outcomes [cs] and
    everything else succeeds. *)
Fixpoint pmatch {A} (xs : list pop) (rs cs : list (outcome A)) : Prop :=
  match xs, rs, cs with
  | [], [], [] => True
  | PCall _ :: xs, r :: rs, c :: cs => r = c /\ pmatch xs rs cs
  | PCall _ :: _, _, _ => False
  | _ :: xs, r :: rs, cs => r = ODone (Ok tt) /\ pmatch xs rs cs
  | _, _, _ => False
  end.

(** A sequential register: every read returns the last value written before it
    (or the initial one); a missing file reads as an error. *)
Fixpoint register_history (v : option bytes) (log : list event) : Prop :=
  match log with
  | [] => True
  | EvRead _ r :: log =>
      r = match v with Some b => Ok b | None => Err OSErr end /\ register_history v log
  | EvWrite _ b :: log => register_history (Some b) log
  end.

(** A process holding the lock. *)
Definition in_critical (p : phase) : Prop :=
  match p with InRead _ _ | InWrite _ _ _ _ | Leave _ => True | _ => False end.

(** Every write of the process is carried out by pickle_write. *)
Definition plan_ok (plan : nat -> bytes -> list fstep) : Prop :=
  forall i b, exists same chunks copied,
    plan i b = write_steps same chunks copied /\ concat chunks = b /\ concat copied = b.

(** [q] can be reached from [p] without ever holding the lock: by dying, or by
    reads and writes that end in a timeout. *)
Definition only_waits (p q : phase) : Prop :=
  rtc (fun p q => q = Dead \/ (exists k, p = Ready (PRead k) /\ q = Ready (k (Err LockTimeout))) \/
                  (exists b k, p = Ready (PWrite b k) /\ q = Ready (k (Err LockTimeout)))) p q.

(** Two processes, the others do nothing. *)
Definition two (p q : prog) : nat -> prog := fun i => match i with 0 => p | 1 => q | _ => PDone end.
