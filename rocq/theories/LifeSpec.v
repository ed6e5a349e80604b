(** * Which trainers a message reaches (C131) *)
From Verif Require Import Py NumModel ClassifierModel TrainSpec StripModel ObserveModel ObserveSpec LifeModel.

(** The program gives up trainer id in these steps. *)
Definition given_up (id : nat) (xs : list lop) : bool :=
  existsb (fun x => match x with LDrop k => k =? id | _ => false end) xs.

(** The trainers listening to corpus i after these steps: created with the
    corpus in their list, and not given up since. *)
Fixpoint listening (past : list lop) (i : nat) : list watcher :=
  match past with
  | [] => []
  | LNew id w corpora :: rest =>
      (if bool_decide (i ∈ corpora) && negb (given_up id rest) then [w] else []) ++ listening rest i
  | _ :: rest => listening rest i
  end.

(** Every trainer created is a new one. *)
Definition new_trainers (xs : list lop) : Prop :=
  forall i j id w1 c1 w2 c2, i < j -> xs !! i = Some (LNew id w1 c1) -> xs !! j = Some (LNew id w2 c2) ->
    exists k, i < k < j /\ xs !! k = Some (LDrop id).

(** All trainings of a program, in terms of what happened before each call. *)
Fixpoint reached (past xs : list lop) : list (watcher * nat) :=
  match xs with
  | [] => []
  | x :: rest =>
      match x with
      | LCall (OAdd i r _ true) | LCall (ORemove i r true) => (fun w => (w, r)) <$> listening past i
      | LCall (OTrain w r) => [(w, r)]
      | _ => []
      end ++ reached (past ++ [x]) rest
  end.

(** Those of classifier j with label b, of messages that contain the word. *)
Definition lessons_for (j : nat) (b : bool) (ts : list (watcher * nat)) : Z :=
  Z.of_nat (length (List.filter (fun t => (t_class t.1 =? j) && eqb (t_spam t.1) b) ts)).
Definition lessons_with (p : program) (j : nat) (b : bool) (w : pyword) (ts : list (watcher * nat)) : Z :=
  Z.of_nat (length (List.filter (fun t => (t_class t.1 =? j) && eqb (t_spam t.1) b && bool_decide (w ∈ (p_tok p t.2).1)) ts)).

(** Every message in the program can be trained. *)
Definition all_trainable (p : program) (xs : list lop) : Prop :=
  forall x, LCall x ∈ xs -> trainable p (call_msg x).
