(** * The convenience methods of a classifier, basic.py:212, 280-294 *)
From Verif Require Import Py NumModel ClassifierModel.

(** A call of one of the methods basic.py:212 (with evidence or without), 280, 284, 288, 292 *)
Inductive entry :=
  | ELearnSpam (s : stream)
  | ELearnHam (s : stream)
  | EUnlearnSpam (s : stream)
  | EUnlearnHam (s : stream)
  | EProb (s : stream)
  | EEvidence (s : stream).

(** What the caller sees: None (or an exception), a number, or a number and a list,
    basic.py:212-294 *)
Inductive answer (A : num) :=
  | ADone (r : res unit)
  | AProb (r : res (F A))
  | AEvidence (r : res (F A * list (pyword * F A))).
Global Arguments ADone {A} _.
Global Arguments AProb {A} _.
Global Arguments AEvidence {A} _.

Section entries.
  Context {A : num} {St : Type} (bk : backend St) (it : set_order).

  (** One call, basic.py:212-294 *)
  Definition run_entry (e : entry) (o : obj A St) : obj A St * answer A :=
    match e with
    | ELearnSpam s => let '(o, r) := learn_spam bk it s o in (o, ADone r)
    | ELearnHam s => let '(o, r) := learn_ham bk it s o in (o, ADone r)
    | EUnlearnSpam s => let '(o, r) := unlearn_spam bk it s o in (o, ADone r)
    | EUnlearnHam s => let '(o, r) := unlearn_ham bk it s o in (o, ADone r)
    | EProb s => let '(o, r) := spamprob bk it s o in (o, AProb r)
    | EEvidence s => let '(o, r) := spamprob_evidence bk it s o in (o, AEvidence r)
    end.

  (** A program that calls the methods basic.py:212-294 in order *)
  Fixpoint run_entries (es : list entry) (o : obj A St) : obj A St * list (answer A) :=
    match es with
    | [] => (o, [])
    | e :: es =>
        let '(o, r) := run_entry e o in
        let '(o, rs) := run_entries es o in (o, r :: rs)
    end.
End entries.
