(** * What observed corpora should do to classifiers and labels *)
From Verif Require Import Py NumModel ClassifierModel TrainSpec StripModel ObserveModel.

Section spec.
  Context (p : program).

  (** The message can be trained: it has a key and tokenizing it ends. *)
  Definition trainable (r : nat) : Prop := p_key p r = true /\ (p_tok p r).2 = None.

  Definition call_msg (x : ocall) : nat := match x with OAdd _ r _ _ | ORemove _ r _ | OTrain _ r => r end.

  (** The trainers that are asked to train by a call. *)
  Definition asked (x : ocall) : list watcher :=
    match x with
    | OAdd i r _ true => p_receivers p Added i
    | ORemove i r true => p_receivers p Removed i
    | OTrain t _ => [t]
    | _ => []
    end.

  (** All trainings a history asks for, in order. *)
  Definition requests (xs : list ocall) : list (watcher * nat) :=
    flat_map (fun x => (fun t => (t, call_msg x)) <$> asked x) xs.

  (** Those of trainable messages. *)
  Definition trainings_done (xs : list ocall) : list (watcher * nat) :=
    List.filter (fun q => p_key p q.2 && bool_decide ((p_tok p q.2).2 = None)) (requests xs).

  (** The calls that fail while tokenizing: the first trainer asked. *)
  Definition failures (xs : list ocall) : list watcher :=
    omap (fun x => if p_key p (call_msg x) && bool_decide ((p_tok p (call_msg x)).2 <> None)
                   then head (asked x) else None) xs.

  (** What classifier j learns. *)
  Definition lessons (j : nat) (xs : list ocall) : list call :=
    (fun q => CLearn (SIter (p_tok p q.2).1) (t_spam q.1)) <$>
      List.filter (fun q => t_class q.1 =? j) (trainings_done xs).

  Definition failed_lessons (j : nat) (b : bool) (xs : list ocall) : Z :=
    Z.of_nat (length (List.filter (fun t => (t_class t =? j) && eqb (t_spam t) b) (failures xs))).

  (** The labels a message is given. *)
  Definition labels_given (r : nat) (xs : list ocall) : list bool :=
    (fun q => t_spam q.1) <$> List.filter (fun q => q.2 =? r) (trainings_done xs).

  (** The exception a call raises, if any. *)
  Definition call_result (x : ocall) : res unit :=
    match asked x with
    | [] => Ok tt
    | _ :: _ => if p_key p (call_msg x)
                then match (p_tok p (call_msg x)).2 with None => Ok tt | Some e => Err e end
                else Err AttributeError
    end.

  (** The dictionary of corpus i. *)
  Definition dict_step (i : nat) (d : gmap (option codes) nat) (x : ocall) : gmap (option codes) nat :=
    match x with
    | OAdd j r id _ => if decide (j = i) then <[match id with Some k => Some k | None => p_id p r end := r]> d else d
    | ORemove j r _ => if decide (j = i) then delete (p_id p r) d else d
    | OTrain _ _ => d
    end.
End spec.
