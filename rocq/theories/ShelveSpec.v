(** * Specification vocabulary for the database-backed classifier *)
From Coq Require Import String.
From Verif Require Import Py NumModel ClassifierModel ShelveModel.

(** Words the database can hold: encodable text other than the reserved key. *)
Definition plain (w : pyword) : Prop :=
  exists s, w = WStr s /\ Forall (fun c => ~ (55296 <= c <= 57343)%N) s /\ s <> str "saved state".

(** The words an operation mentions. *)
Definition mentions (x : sop) : list pyword :=
  match x with
  | SCall (CLearn s _) | SCall (CUnlearn s _) | SCall (CScore s) => elems s
  | _ => []
  end.

Definition plain_op (x : sop) : Prop := forall w, w ∈ mentions x -> plain w.

Definition is_unlearn (x : sop) : Prop :=
  match x with SCall (CUnlearn _ _) => True | _ => False end.

(** Every load or re-open happens when nothing was trained since the last
    store; [dirty] says whether something was. *)
Fixpoint tidy (dirty : bool) (xs : list sop) : Prop :=
  match xs with
  | [] => True
  | SCall (CScore _) :: xs => tidy dirty xs
  | SCall _ :: xs => tidy true xs
  | SSave :: xs => tidy false xs
  | SLoad :: xs | SReopen :: xs => dirty = false /\ tidy dirty xs
  end.

(** The calls among the operations. *)
Fixpoint calls_of (xs : list sop) : list call :=
  match xs with
  | [] => []
  | SCall c :: xs => c :: calls_of xs
  | _ :: xs => calls_of xs
  end.

(** [rs] are the outcomes of [xs], where the calls have the outcomes [cs] and
    everything else succeeds. *)
Fixpoint outcomes_match {A} (xs : list sop) (rs cs : list (outcome A)) : Prop :=
  match xs, rs, cs with
  | [], [], [] => True
  | SCall _ :: xs, r :: rs, c :: cs => r = c /\ outcomes_match xs rs cs
  | SCall _ :: _, _, _ => False
  | _ :: xs, r :: rs, cs => r = ODone (Ok tt) /\ outcomes_match xs rs cs
  | _, _, _ => False
  end.

(** The record the object holds for a word, as the object itself reports it. *)
Definition recorded {A} (o : obj A sstore) (w : pyword) : res (option winfo) :=
  snd (shelve_get w (o_store o)).

(** The contents of the database after the first changes of a log. *)
Definition replay (d : database) (log : list dbwrite) : database := foldl db_apply d log.

(** Databases that can exist: the empty one, and what is on disk when a
    program that opened such a database and performed operations satisfying [P]
    stops at an arbitrary point. *)
Inductive left_behind (A : num) (P : sop -> Prop) : database -> Prop :=
  | left_empty : left_behind A P ∅
  | left_crash d it xs n :
      left_behind A P d -> set_order_ok it -> Forall P xs ->
      left_behind A P
        (replay d (take n (s_log (o_store (fst (run_sops (A:=A) it xs (fst (shelve_open d)))))))).
