(** * Specification vocabulary for scoring: what the documentation calls the
    probability and the strength of a word, which words of a message are
    candidates, and when two calls have the same outcome. *)
From Verif Require Import Py NumModel ClassifierModel.

Section spec.
  Context {A : num}.

  (** The spam probability of a word for a trained classifier: one half for an
      unknown word, else the value of the documented formula on its counts
      (see C09 for the formula itself). *)
  Definition spam_probability (o : obj A (gmap pyword winfo)) (w : pyword) : res (F A) :=
    match o_store o !! w with
    | None => Ok (nQ A 1 2)
    | Some r => prob_formula (o_nspam o) (o_nham o) r
    end.

  (** Distance from one half, and the documented threshold 0.1. *)
  Definition strength (p : F A) : F A := nabs A (nsub A p (nQ A 1 2)).
  Definition strong (p : F A) : bool := nge A (strength p) (nQ A 1 10).

  (** The literal 1/2 is not strong, and 0 < 1; true of every arithmetic one
      would call an arithmetic. *)
  Definition sane : Prop :=
    strong (nQ A 1 2) = false /\ nlt A (nZ A 0) (nZ A 1) = true.
End spec.
Global Arguments sane A : clear implicits.

(** The word or the pair of adjacent words at the given positions. *)
Definition occurs (ws : list pyword) (w : pyword) (pos : list Z) : Prop :=
  (exists i, ws !! i = Some w /\ pos = [Z.of_nat i]) \/
  (exists i x y, ws !! i = Some x /\ ws !! S i = Some y /\ w = bigram x y /\
     pos = [Z.of_nat i; Z.of_nat (S i)]).

(** The candidates for clues of a message. *)
Definition candidate (bigrams : bool) (ws : list pyword) (w : pyword) : Prop :=
  if bigrams then exists pos, occurs ws w pos else w ∈ ws.

(** Two calls return the same value, or both raise. *)
Definition same_result {B} (r1 r2 : res B) : Prop :=
  match r1, r2 with
  | Ok a, Ok b => a = b
  | Err _, Err _ => True
  | _, _ => False
  end.

(** The words as documented to be learned from a list with bigrams
    (basic.py:323-343): every word and every pair of adjacent words. *)
Definition documented_tokens (l : list pyword) (w : pyword) : Prop :=
  w ∈ l \/ exists i x y, l !! i = Some x /\ l !! S i = Some y /\ w = bigram x y.

(** The same call with the opposite label. *)
Definition opposite (c : call) : call :=
  match c with
  | CLearn s b => CLearn s (negb b)
  | CUnlearn s b => CUnlearn s (negb b)
  | CScore s => CScore s
  end.

(** At most 150 words of the message are strong. *)
Definition few_strong_words {A : num} (o : obj A (gmap pyword winfo)) (ws : list pyword) : Prop :=
  exists l, length l <= 150 /\
    forall w q, w ∈ ws -> spam_probability o w = Ok q -> strong q = true -> w ∈ l.

(** The words of a message are comparable: all of one string type, and all
    text when they are formatted into bigrams. *)
Definition one_type (bigrams : bool) (ws : list pyword) : Prop :=
  if bigrams then forall w, w ∈ ws -> exists s, w = WStr s
  else forall w1 w2, w1 ∈ ws -> w2 ∈ ws -> wkind w1 = wkind w2.
