(** * Specification of the convenience methods *)
From Verif Require Import Py NumModel ClassifierModel EntryModel TrainSpec.

(** [kept bigrams es spams hams]: after the calls es the messages spams are
    learned as spam and the messages hams as ham (each a list of its words); every
    unlearn is given a message that is learned on that side. *)
Inductive kept (bigrams : bool) : list entry -> list (list pyword) -> list (list pyword) -> Prop :=
  | kept_nil : kept bigrams [] [] []
  | kept_spam es ss hs s ws : kept bigrams es ss hs -> (forall w, w ∈ ws <-> tokens_of bigrams s w) ->
      kept bigrams (es ++ [ELearnSpam s]) (ws :: ss) hs
  | kept_ham es ss hs s ws : kept bigrams es ss hs -> (forall w, w ∈ ws <-> tokens_of bigrams s w) ->
      kept bigrams (es ++ [ELearnHam s]) ss (ws :: hs)
  | kept_unspam es ss1 ws ss2 hs s : kept bigrams es (ss1 ++ ws :: ss2) hs -> (forall w, w ∈ ws <-> tokens_of bigrams s w) ->
      kept bigrams (es ++ [EUnlearnSpam s]) (ss1 ++ ss2) hs
  | kept_unham es ss hs1 ws hs2 s : kept bigrams es ss (hs1 ++ ws :: hs2) -> (forall w, w ∈ ws <-> tokens_of bigrams s w) ->
      kept bigrams (es ++ [EUnlearnHam s]) ss (hs1 ++ hs2)
  | kept_prob es ss hs s : kept bigrams es ss hs -> kept bigrams (es ++ [EProb s]) ss hs
  | kept_evidence es ss hs s : kept bigrams es ss hs -> kept bigrams (es ++ [EEvidence s]) ss hs.

(** The number of messages with the word *)
Definition with_word (w : pyword) (l : list (list pyword)) : Z := Z.of_nat (length (filter (fun ws => w ∈ ws) l)).

(** A call that returned (scores may be anything) *)
Definition returned {A} (r : answer A) : Prop := match r with ADone r => r = Ok tt | _ => True end.
