(** * Specification of caches *)
From Verif Require Import Py CacheModel.

Section spec.
  Context {C T : Type}.
  Notation msg := (msg C T).
  Notation kop := (@kop C T).

  (** The message most recently put under a key. *)
  Fixpoint last_put (xs : list kop) (k : key) : option msg :=
    match xs with
    | [] => None
    | x :: xs => match last_put xs k with
                 | Some m => Some m
                 | None => match x with
                           | KPut k' m => if decide (k' = k) then Some m else None
                           | _ => None
                           end
                 end
    end.

  (** A first-in first-out queue with a limit: adding to a full queue drops the
      oldest entry. *)
  Definition enqueue (max : option Z) (q : list (key * msg)) (e : key * msg) : list (key * msg) :=
    let q := q ++ [e] in
    match max with
    | Some n => if (n <? Z.of_nat (length q))%Z then tail q else q
    | None => q
    end.

  Definition dequeue (q : list (key * msg)) (k : key) : list (key * msg) :=
    filter (fun e => e.1 <> k) q.

  Definition queue_step (max : option Z) (q : list (key * msg)) (x : kop) : list (key * msg) :=
    match x with KPut k m => enqueue max q (k, m) | KPop k => dequeue q k | KGet _ => q end.

  Definition queue (max : option Z) (xs : list kop) : list (key * msg) := foldl (queue_step max) [] xs.

  (** No key is put while it is in the queue. *)
  Fixpoint fresh_puts (max : option Z) (q : list (key * msg)) (xs : list kop) : Prop :=
    match xs with
    | [] => True
    | x :: xs =>
        match x with KPut k _ => k ∉ q.*1 | _ => True end /\ fresh_puts max (queue_step max q x) xs
    end.

  (** The last n elements of a list. *)
  Definition last_n {X} (n : nat) (l : list X) : list X := drop (length l - n) l.

  (** The file names that were put. *)
  Definition put_names (xs : list kop) : gset codes :=
    list_to_set (omap (fun x => match x with KPut (Some f) _ => Some f | _ => None end) xs).

  (** The file names that were popped. *)
  Definition pop_names (xs : list kop) : gset codes :=
    list_to_set (omap (fun x => match x with KPop (Some f) => Some f | _ => None end) xs).

  (** Parsing the bytes of a message and writing it again gives the same bytes. *)
  Definition email_ok (em : emailpkg C) : Prop :=
    forall c, as_bytes em (parse em (as_bytes em c)) = as_bytes em c.

  (** A program that only puts. *)
  Definition puts_of (es : list (key * msg)) : list kop := (fun e => KPut e.1 e.2) <$> es.
End spec.
