(** * Specification vocabulary for processes sharing a database *)
From Coq Require Import String.
From Verif Require Import Py NumModel ClassifierModel ShelveModel ShelveSpec ShareModel.

(** Every entry is either the totals, under the reserved key, with the current
    version; or the counts of a word, of which at least one is positive. *)
Definition well_kept (d : database) : Prop := forall k v, d !! k = Some v ->
  (k = str "saved state" /\ exists s h, v = DState 5 s h /\ (0 <= s)%Z /\ (0 <= h)%Z) \/
  (plain (WStr k) /\ exists s h, v = DWord (WI s h) /\ (0 <= s)%Z /\ (0 <= h)%Z /\ (0 < s + h)%Z).

(** What an operation may end with: opening, load() and store() return; a
    message can be learned, unlearned or scored, or the call raises one of few
    errors; KeyError only if somebody unlearns messages. *)
Definition expected_end {A} (somebody_unlearns : Prop) (x : sop) (r : outcome A) : Prop :=
  match x, r with
  | (SReopen | SLoad | SSave), ODone r => r = Ok tt
  | SCall (CLearn _ _), ODone r => r = Ok tt \/ (r = Err KeyError /\ somebody_unlearns)
  | SCall (CUnlearn _ _), ODone r => r = Ok tt \/ r = Err ValueError \/ r = Err KeyError
  | SCall (CScore _), OScore (Ok _) => True
  | SCall (CScore _), OScore (Err e) =>
      e = Exception1 \/ e = Exception2 \/ (e = KeyError /\ somebody_unlearns)
  | _, _ => False
  end.

(** Operations that only look at the database. *)
Definition reads (x : sop) : Prop :=
  match x with SCall (CScore _) | SLoad | SReopen => True | _ => False end.

(** Operations that train. *)
Definition trains (x : sop) : Prop :=
  match x with SCall (CLearn _ _) | SCall (CUnlearn _ _) => True | _ => False end.
