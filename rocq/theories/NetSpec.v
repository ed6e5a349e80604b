(** * Specification vocabulary for hosts, networks, timeouts and memoisation *)
From Coq Require Import String.
From Verif Require Import Py.
Local Open Scope N_scope.

(** ** Hosts: a dot is the code 46 *)

(** t is all of s, or what follows some dot of s. *)
Definition dot_suffix (t s : codes) : Prop := t = s \/ exists x, s = x ++ 46 :: t.
(** t is all of s, or what precedes some dot of s. *)
Definition dot_prefix (t s : codes) : Prop := t = s \/ exists x, s = t ++ 46 :: x.
(** The number of dots. *)
Definition dots (s : codes) : nat := length (filter (fun c => c = 46) s).
(** Each element is longer than the one before. *)
Definition longer_and_longer (l : list codes) : Prop :=
  forall i a b, l !! i = Some a -> l !! S i = Some b -> (length a < length b)%nat.

(** ** IPv4 *)

(** The text of four octets. *)
Definition quad (a b c d : N) : codes :=
  digits a ++ 46 :: digits b ++ 46 :: digits c ++ 46 :: digits d.
Definition octet (n : N) : Prop := n < 256.

(** A block of addresses: those that share the first [len] of 32 bits with [addr]. *)
Definition in_block (addr len x : N) : Prop := x < 2 ^ 32 /\ x / 2 ^ (32 - len) = addr / 2 ^ (32 - len).

(** ** Memoisation *)

(** The i-th call asked for k and returned normally. *)
Definition returned {K V} (ks : list K) (rs : list (res V)) (i : nat) (k : K) (v : V) : Prop :=
  ks !! i = Some k /\ rs !! i = Some (Ok v).

(** The arguments of those calls that no earlier call with the same argument
    had answered. *)
Fixpoint unanswered {K V} `{EqDecision K} (done : list K) (ks : list K) (rs : list (res V)) : list K :=
  match ks, rs with
  | k :: ks, r :: rs =>
      (if bool_decide (k ∈ done) then [] else [k]) ++
      unanswered (match r with Ok _ => k :: done | Err _ => done end) ks rs
  | _, _ => []
  end.

(** ** Threads *)

(** Schedules in which the calls are disjoint or properly nested: thread i
    reads, others run completely, i sets the timeout, others run completely, i
    restores it. *)
Inductive nested : list nat -> Prop :=
  | nested_nil : nested []
  | nested_call i s0 s1 s2 :
      nested s0 -> nested s1 -> nested s2 ->
      i ∉ s0 -> i ∉ s1 -> i ∉ s2 ->
      (forall j, j ∈ s0 -> j ∉ s1) -> (forall j, j ∈ s0 -> j ∉ s2) -> (forall j, j ∈ s1 -> j ∉ s2) ->
      nested (i :: s0 ++ i :: s1 ++ i :: s2).
