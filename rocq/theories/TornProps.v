(** * C27: words with surrogates; C32: a missing file *)
From Coq Require Import String.
From Verif Require Import Py NumModel ClassifierModel TrainSpec ShelveModel ShelveSpec ShelveRunProofs RealModel CdbClassModel TornProofs.

(** ** C27 *)
Theorem C27_words_with_surrogates_raise_but_count :
  forall (A : num) (it : set_order) (d : database) (xs : list sop) (s : stream) (b : bool),
  set_order_ok it -> left_behind A plain_op d -> Forall plain_op xs ->
  elems s <> [] -> (forall w, w ∈ elems s -> exists t c, w = WStr t /\ c ∈ t /\ (55296 <= c <= 57343)%N) ->
  let o := fst (run_sops it xs (fst (shelve_open (A:=A) d))) in
  exists o' : obj A sstore, learn shelve_backend it s b o = (o', Err UnicodeEncodeError) /\
    total_of b o' = (total_of b o + 1)%Z /\ total_of (negb b) o' = total_of (negb b) o /\
    o_store o' = o_store o /\
    snd (spamprob_evidence shelve_backend it s o) = Err UnicodeEncodeError.
Proof. intros A it d xs s b Hit. exact (torn_words it Hit d xs s b). Qed.
Print Assumptions C27_words_with_surrogates_raise_but_count.

(** The first and the last surrogate, each inside another text. *)
Example C27_words_with_surrogates_case :
  let s := SList [WStr (str "a" ++ [55296%N]); WStr ([57343%N] ++ str "b")] in
  elems s <> [] /\ (forall w, w ∈ elems s -> exists t c, w = WStr t /\ c ∈ t /\ (55296 <= c <= 57343)%N) /\
  left_behind exact plain_op ∅ /\ Forall plain_op [].
Proof. exact torn_case. Qed.

(** ** C32 *)
Theorem C32_missing_file_is_an_empty_classifier :
  forall (A : num) (X : Type) (cdb : option (cdbmod X)) (o : obj A (gmap pyword winfo)), exists o',
  cdb_load cdb None o = (o', Ok tt) /\ o_nspam o' = 0%Z /\ o_nham o' = 0%Z /\ o_store o' = ∅.
Proof. exact cdb_missing. Qed.
Print Assumptions C32_missing_file_is_an_empty_classifier.
