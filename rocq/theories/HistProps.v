(** * C07: histories that lead to the same training *)
From Coq Require Import String.
From Verif Require Import Py NumModel ClassifierModel TrainSpec TrainProofs HistProofs.

Theorem C07_only_the_training_counts :
  forall (A : num) (it : set_order) (bigrams : bool) (h1 h2 h : list call), set_order_ok it ->
  let o1 := fst (run mem_backend it h1 (c_new bigrams ∅ : obj A (gmap pyword winfo))) in
  let o2 := fst (run mem_backend it h2 (c_new bigrams ∅ : obj A (gmap pyword winfo))) in
  same_training o1 o2 ->
  snd (run mem_backend it h o1) = snd (run mem_backend it h o2) /\
  same_training (fst (run mem_backend it h o1)) (fst (run mem_backend it h o2)).
Proof. exact same_histories. Qed.
Print Assumptions C07_only_the_training_counts.

(** Different histories with the same training. *)
Example C07_histories_case (A : num) :
  let a := SList [WStr (str "a")] in let b := SList [WStr (str "b"); WStr (str "a")] in
  same_training (fst (run mem_backend remove_dups [CLearn a true; CLearn b false; CUnlearn a true] (c_new false ∅ : obj A (gmap pyword winfo))))
                (fst (run mem_backend remove_dups [CLearn b false] (c_new false ∅ : obj A (gmap pyword winfo)))).
Proof. split_and!; [done|done| |done]. apply (bool_decide_unpack _). by vm_compute. Qed.
