(** * C141: how byte words are written in the name of a pair *)
From Coq Require Import String.
From Verif Require Import Py ClassifierModel PairReprSpec PairReprProofs.

Theorem C141_name_of_a_pair : forall x y, Forall (fun c => (c < 256)%N) x -> Forall (fun c => (c < 256)%N) y ->
  exists tx ty, shown x tx /\ shown y ty /\ bigram (WBytes x) (WBytes y) = WStr (str "bi:" ++ tx ++ str " " ++ ty).
Proof. exact pair_name_shown. Qed.
Print Assumptions C141_name_of_a_pair.

Theorem C141_name_is_determined : forall b t t', shown b t -> shown b t' -> t = t'.
Proof. exact shown_det. Qed.
Print Assumptions C141_name_is_determined.

Example C141_shown_case : shown (str "it's") ([98; 34]%N ++ str "it's" ++ [34]%N) /\ shown [7; 200]%N (str "b'\x07\xc8'").
Proof. exact shown_case. Qed.
