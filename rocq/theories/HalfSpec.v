(** * Specification vocabulary for messages the database cannot hold (C144) *)
From Coq Require Import String.
From Verif Require Import Py NumModel ClassifierModel ShelveModel ShelveSpec.

(** Texts without surrogates, except the reserved one, fit in the database. *)
Definition fits (w : pyword) : Prop := plain w.

(** Words that are not texts, and texts with a surrogate, do not. *)
Definition misfit (w : pyword) : Prop :=
  (forall t, w <> WStr t) \/ (exists t c, w = WStr t /\ c ∈ t /\ (55296 <= c <= 57343)%N).

(** What is raised on their account. *)
Definition misfit_error (w : pyword) : exn :=
  match w with WStr _ => UnicodeEncodeError | _ => AttributeError end.

(** A record with one more message of the given kind. *)
Definition one_more (b : bool) (r : option winfo) : winfo :=
  match r with
  | None => if b then WI 1 0 else WI 0 1
  | Some r => if b then WI (spamcount r + 1) (hamcount r) else WI (spamcount r) (hamcount r + 1)
  end.
