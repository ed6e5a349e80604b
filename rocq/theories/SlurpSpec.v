(** * Specification vocabulary for the slurping classifier *)
From Verif Require Import Py ClassifierModel.

(** Scoring calls. *)
Definition is_score (c : call) : Prop := match c with CScore _ => True | _ => False end.
Global Instance is_score_dec c : Decision (is_score c).
Proof. destruct c; [right; intros []|right; intros []|left; exact I]. Defined.

(** The part of a URL (without protocol) before its first slash, code 47. *)
Definition host_of (url host : codes) : Prop :=
  47%N ∉ host /\ (url = host \/ exists path, url = host ++ 47%N :: path).
