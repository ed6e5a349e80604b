(** * Specification of the names of pairs of words *)
From Coq Require Import String.
From Verif Require Import Py ClassifierModel.

(** The record of the pair x y of byte words is stored under this text. *)
Definition pair_name (x y : codes) : codes := str "bi:" ++ repr_bytes x ++ [32%N] ++ repr_bytes y.

(** x and y are neighbours in the message. *)
Definition neighbours (x y : codes) (l : list codes) : Prop := exists l1 l2, l = l1 ++ x :: y :: l2.
Global Instance neighbours_dec x y l : Decision (neighbours x y l).
Proof.
  induction l as [|u l IH]; [right; by intros ([|??]&?&?)|].
  destruct IH as [IH|IH]; [left; destruct IH as (l1&l2&->); by exists (u :: l1), l2|].
  destruct (decide (head l = Some y /\ u = x)) as [[H ->]|H].
  - left. destruct l as [|v l]; [done|]. injection H as ->. by exists [], l.
  - right. intros ([|u' l1]&l2&E); injection E as -> ->; [by apply H|]. apply IH. by exists l1, l2.
Defined.

(** x is in the message and not (only) at its end. *)
Definition before_last (x : codes) (l : list codes) : Prop := exists y, neighbours x y l.
Global Instance before_last_dec x l : Decision (before_last x l).
Proof.
  induction l as [|u l IH]; [right; by intros (?&[|??]&?&?)|].
  destruct IH as [IH|IH]; [left; destruct IH as (y&l1&l2&->); by exists y, (u :: l1), l2|].
  destruct l as [|v l]; [right; by intros (?&[|? [|??]]&?&?)|].
  destruct (decide (u = x)) as [->|H].
  - left. by exists v, [], l.
  - right. intros (y&[|u' l1]&l2&E); injection E as -> E; [done|]. apply IH. by exists y, l1, l2.
Defined.

(** How many messages with the label satisfy P? *)
Definition how_many (b : bool) (P : list codes -> Prop) `{forall l, Decision (P l)} (ms : list (list codes * bool)) : Z :=
  Z.of_nat (length (filter (fun m => m.2 = b /\ P m.1) ms)).

Definition record_of (sp hm : Z) : option winfo := if (sp =? 0)%Z && (hm =? 0)%Z then None else Some (WI sp hm).
