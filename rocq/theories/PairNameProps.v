(** * Property theorems C141 (the names of pairs of words) *)
From Coq Require Import String.
From Verif Require Import Py NumModel ClassifierModel TrainSpec PairNameSpec PairNameProofs.

(** ** C141 *)
Theorem C141_pairs_of_byte_words_are_told_apart :
  forall x y x' y', bigram (WBytes x) (WBytes y) = bigram (WBytes x') (WBytes y') -> x = x' /\ y = y'.
Proof. intros x y x' y' E. exact (pair_name_inj x y x' y' (wstr_inj _ _ E)). Qed.
Print Assumptions C141_pairs_of_byte_words_are_told_apart.

Theorem C141_pairs_are_no_byte_words : forall u v x, bigram u v <> WBytes x.
Proof. exact pair_is_text. Qed.
Print Assumptions C141_pairs_are_no_byte_words.

Theorem C141_pairs_of_text_words_without_blanks_are_told_apart :
  forall x y x' y', 32%N ∉ x -> 32%N ∉ x' ->
  bigram (WStr x) (WStr y) = bigram (WStr x') (WStr y') -> x = x' /\ y = y'.
Proof. exact text_pair_inj. Qed.
Print Assumptions C141_pairs_of_text_words_without_blanks_are_told_apart.

Theorem C141_records_count_neighbours :
  forall (A : num) (it : set_order) (ms : list (list codes * bool)), set_order_ok it ->
  let '(o, rs) := run mem_backend it ((fun m => CLearn (SList (WBytes <$> m.1)) m.2) <$> ms) (c_new true ∅ : obj A (gmap pyword winfo)) in
  Forall training_ok rs /\
  (forall x y, o_store o !! WStr (pair_name x y) = record_of (how_many true (neighbours x y) ms) (how_many false (neighbours x y) ms)) /\
  (forall x, o_store o !! WBytes x = record_of (how_many true (before_last x) ms) (how_many false (before_last x) ms)).
Proof. intros A it ms Hit. exact (pair_records it Hit ms). Qed.
Print Assumptions C141_records_count_neighbours.

(** Text words with blanks, text that looks like bytes, and text that looks like a pair are confused. *)
Theorem C141_all_words_are_told_apart_refuted :
  (forall a b c, bigram (WStr (a ++ [32%N] ++ b)) (WStr c) = bigram (WStr a) (WStr (b ++ [32%N] ++ c))) /\
  (forall x w, bigram (WStr (repr_bytes x)) w = bigram (WBytes x) w) /\
  (forall x y, WStr (pair_name x y) = bigram (WBytes x) (WBytes y)).
Proof. exact pairs_confused. Qed.
Print Assumptions C141_all_words_are_told_apart_refuted.

(** A message with a quote, a blank and a control character in its words, learned twice. *)
Example C141_case :
  let m := [str "it's"; str "skip:a 10"; [7; 200]%N] in
  how_many true (neighbours (str "it's") (str "skip:a 10")) [(m, true); (m, false); (m, true)] = 2%Z /\
  how_many true (before_last [7; 200]%N) [(m, true); (m, false); (m, true)] = 0%Z /\
  pair_name (str "skip:a 10") [7; 200]%N = str "bi:b'skip:a 10' b'\x07\xc8'".
Proof. split_and!; by vm_compute. Qed.
