(** * Words: records that count more messages than there are *)
From Verif Require Import Py NumModel ClassifierModel TrainSpec.

(** The record of the word counts more messages of the label than the
    classifier was trained on; a total of zero counts as one. *)
Definition overdrawn {A : num} (o : obj A (gmap pyword winfo)) (b : bool) (w : pyword) : Prop :=
  (Z.max 1 (total_of b o) < count b (o_store o !! w))%Z.

(** How many messages of the label the calls ask to learn, and to unlearn. *)
Fixpoint learns (b : bool) (h : list call) : Z :=
  match h with
  | [] => 0
  | CLearn _ b' :: h => (if eqb b b' then 1 else 0) + learns b h
  | _ :: h => learns b h
  end.
Fixpoint unlearns (b : bool) (h : list call) : Z :=
  match h with
  | [] => 0
  | CUnlearn _ b' :: h => (if eqb b b' then 1 else 0) + unlearns b h
  | _ :: h => unlearns b h
  end.

(** No message that is learned has a token in the set. *)
Definition learned_apart (bigrams : bool) (h : list call) (T : pyword -> Prop) : Prop :=
  forall s b w, CLearn s b ∈ h -> tokens_of bigrams s w -> ~ T w.
