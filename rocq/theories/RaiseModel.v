(** * Training with a generator that may raise
    classifiers/basic.py:296-321 and 440-486 called with what Tokenizer() returns:
    a one-shot generator which yields tokens and may end with an exception. *)
From Verif Require Import Py NumModel ClassifierModel StripModel.

Section train.
  Context {A : num} {St : Type}.
  Context (bk : backend St) (it : set_order).
  Notation obj := (obj A St).

  (** basic.py:440-459, _add_msg: the totals are changed before [set(wordstream)]
      of line 447 exhausts the generator *)
  Definition add_gen (g : gen) (is_spam : bool) : M obj unit :=
    fun o => match g with
             | (ws, None) => add_msg bk it ws is_spam o
             | (_, Some e) =>
                 let o := with_cache o ∅ in
                 let o := if is_spam then with_counts o (o_nspam o + 1) (o_nham o)
                          else with_counts o (o_nspam o) (o_nham o + 1) in
                 (o, Err e)
             end.

  (** basic.py:461-486, _remove_msg, likewise line 472 *)
  Definition remove_gen (g : gen) (is_spam : bool) : M obj unit :=
    fun o => match g with
             | (ws, None) => remove_msg bk it ws is_spam o
             | (_, Some e) =>
                 let o := with_cache o ∅ in
                 if ((if is_spam then o_nspam o else o_nham o) <=? 0)%Z then (o, Err ValueError)
                 else
                   let o := if is_spam then with_counts o (o_nspam o - 1) (o_nham o)
                            else with_counts o (o_nspam o) (o_nham o - 1) in
                   (o, Err e)
             end.

  (** basic.py:323-350, _enhance_wordstream on a generator: zip, islice, the
      generator expression and chain pass an exception on; what is yielded
      before it is not used (basic.py:447, 472). *)
  Definition enhance_gen (g : gen) : gen :=
    match g with
    | (ws, None) => (enhance (SIter ws), None)
    | (_, Some e) => ([], Some e)
    end.

  (** basic.py:296-308, learn *)
  Definition learn_gen (g : gen) (is_spam : bool) : M obj unit :=
    fun o => match o_bigrams o with
             | None => (o, Err AttributeError)
             | Some true => add_gen (enhance_gen g) is_spam o
             | Some false => add_gen g is_spam o
             end.

  (** basic.py:310-321, unlearn *)
  Definition unlearn_gen (g : gen) (is_spam : bool) : M obj unit :=
    fun o => match o_bigrams o with
             | None => (o, Err AttributeError)
             | Some true => remove_gen (enhance_gen g) is_spam o
             | Some false => remove_gen g is_spam o
             end.

  (** A caller that tries again: the same call several times, each exception
      swallowed (basic.py:296-308) *)
  Fixpoint retry (n : nat) (g : gen) (is_spam : bool) (o : obj) : obj :=
    match n with
    | O => o
    | S n => retry n g is_spam (learn_gen g is_spam o).1
    end.
End train.
