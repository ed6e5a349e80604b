(** * Specification vocabulary for training: what a user means by
    "the messages that are currently learned". Independent of the model's
    dictionaries, records and loops. *)
From Verif Require Import Py ClassifierModel.

(** A learned message: its tokens and its label ([true] = spam). *)
Definition message : Type := list pyword * bool.

(** The tokens a message contributes, as a predicate.
    Without bigrams: its words.
    With bigrams and a list l: every word but the last, and every pair of
    adjacent words (this is what the code does; see C21 for the contrast with
    the documentation).
    With bigrams and a one-shot iterator over l: the word at position 0 and
    the pair (1,3), then for k = 1, 2, ... the word at position 3k+1 and the
    pair (3k+2, 3k+3), as long as all positions exist. *)
Definition tokens_of (bigrams : bool) (s : stream) (w : pyword) : Prop :=
  match bigrams, s with
  | false, SList l | false, SIter l => w ∈ l
  | true, SList l =>
      (exists i x, l !! i = Some x /\ S i < length l /\ w = x) \/
      (exists i x y, l !! i = Some x /\ l !! S i = Some y /\ w = bigram x y)
  | true, SIter l =>
      (exists x y z, l !! 0 = Some x /\ l !! 1 = Some y /\ l !! 3 = Some z
                     /\ (w = x \/ w = bigram y z)) \/
      (exists k x y z, k <> 0 /\ l !! (3 * k + 1) = Some x
                       /\ l !! (3 * k + 2) = Some y /\ l !! (3 * k + 3) = Some z
                       /\ (w = x \/ w = bigram y z))
  end.

(** How many of the messages have the label / have it and contain the word. *)
Fixpoint total (b : bool) (ms : list message) : Z :=
  match ms with
  | [] => 0
  | (_, b') :: ms => (if eqb b b' then 1 else 0) + total b ms
  end.

Fixpoint containing (b : bool) (w : pyword) (ms : list message) : Z :=
  match ms with
  | [] => 0
  | (ws, b') :: ms =>
      (if eqb b b' && bool_decide (w ∈ ws) then 1 else 0) + containing b w ms
  end.

(** The record a word should have, given the currently learned messages. *)
Definition expected_record (ms : list message) (w : pyword) : option winfo :=
  if (containing true w ms =? 0)%Z && (containing false w ms =? 0)%Z then None
  else Some (WI (containing true w ms) (containing false w ms)).

(** A history in which every unlearn is given a currently learned message.
    The second index is the list of currently learned messages. *)
Inductive matched (bigrams : bool) : list call -> list message -> Prop :=
  | matched_nil : matched bigrams [] []
  | matched_learn h ms s b ws :
      matched bigrams h ms -> (forall w, w ∈ ws <-> tokens_of bigrams s w) ->
      matched bigrams (h ++ [CLearn s b]) ((ws, b) :: ms)
  | matched_unlearn h ms1 ws b ms2 s :
      matched bigrams h (ms1 ++ (ws, b) :: ms2) ->
      (forall w, w ∈ ws <-> tokens_of bigrams s w) ->
      matched bigrams (h ++ [CUnlearn s b]) (ms1 ++ ms2)
  | matched_score h ms s :
      matched bigrams h ms -> matched bigrams (h ++ [CScore s]) ms.

(** Outcome of a training call that succeeded (any outcome of a score call). *)
Definition training_ok {A} (r : outcome A) : Prop :=
  match r with ODone r => r = Ok tt | OScore _ => True end.

(** Two lists of messages contain the same messages up to the order of the
    messages and up to order and repetition of the words in each message. *)
Definition same_messages (bigrams : bool) (h1 h2 : list (stream * bool)) : Prop :=
  exists h, h1 ≡ₚ h /\
    Forall2 (fun a b => a.2 = b.2 /\
               forall w, tokens_of bigrams a.1 w <-> tokens_of bigrams b.1 w) h h2.

(** Equality of two objects up to the probability cache. *)
Definition same_training {A St} (o1 o2 : obj A St) : Prop :=
  o_nspam o1 = o_nspam o2 /\ o_nham o1 = o_nham o2 /\ o_store o1 = o_store o2
  /\ o_bigrams o1 = o_bigrams o2.

(** The count of a label in a stored record; an absent record counts as zero. *)
Definition count (b : bool) (r : option winfo) : Z :=
  match r with
  | None => 0
  | Some r => if b then spamcount r else hamcount r
  end.

(** The message total of a label. *)
Definition total_of {A St} (b : bool) (o : obj A St) : Z :=
  if b then o_nspam o else o_nham o.

(** Counts are non-negative and no record is empty. *)
Definition counts_ok {A} (o : obj A (gmap pyword winfo)) : Prop :=
  (0 <= o_nspam o)%Z /\ (0 <= o_nham o)%Z /\
  forall w r, o_store o !! w = Some r ->
    (0 <= spamcount r)%Z /\ (0 <= hamcount r)%Z /\ (spamcount r <> 0 \/ hamcount r <> 0)%Z.

(** Dropping the entries marked [true]. *)
Definition unmarked {B} (l : list (B * bool)) : list B :=
  fst <$> List.filter (fun p => negb p.2) l.
