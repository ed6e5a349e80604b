(** * Specification vocabulary for the numeric properties, over the reals *)
From Coq Require Import Reals.
From Verif Require Import Py.
Local Open Scope R_scope.

(** A message total, counted as one when nothing was trained. *)
Definition nonempty_total (n : Z) : R := IZR (if (n =? 0)%Z then 1 else n).

(** Fraction of the messages of one label that contain the word. *)
Definition fraction (count total : Z) : R := IZR count / nonempty_total total.

(** Robinson's formula as documented in basic.py:383-406:
    (s*x + n*p) / (s + n) with s = .45, x = .5. *)
Definition spam_share (sc nspam hc nham : Z) : R :=
  fraction sc nspam / (fraction hc nham + fraction sc nspam).

Definition robinson (sc nspam hc nham : Z) : R :=
  let n := IZR (hc + sc) in
  (45 / 100 * (1 / 2) + n * spam_share sc nspam hc nham) / (45 / 100 + n).

(** The counts of a word are possible for the totals. *)
Definition consistent (sc nspam hc nham : Z) : Prop :=
  (0 <= sc /\ 0 <= hc /\ (sc <> 0 \/ hc <> 0) /\ 0 <= nspam /\ 0 <= nham /\
   sc <= (if nspam =? 0 then 1 else nspam) /\ hc <= (if nham =? 0 then 1 else nham))%Z.

(** The first k terms of the exponential series. *)
Fixpoint exp_terms (k : nat) (m : R) : R :=
  match k with
  | O => 0
  | S k => exp_terms k m + m ^ k / INR (fact k)
  end.

(** The chi-squared tail for 2k degrees of freedom at 2m. *)
Definition chi_tail (k : nat) (m : R) : R := exp (- m) * exp_terms k m.

Fixpoint rsum (l : list R) : R :=
  match l with [] => 0 | x :: l => x + rsum l end.

(** Fisher's method: from the clue probabilities to the two indicators and the
    score, as documented in basic.py:212-232. *)
Definition fisher (ps : list R) : R := 1 - chi_tail (length ps) (- rsum (ln <$> ps)).
Definition indicator_S (ps : list R) : R := fisher ((fun p => 1 - p) <$> ps).
Definition indicator_H (ps : list R) : R := fisher ps.
Definition combined_score (ps : list R) : R := (indicator_S ps - indicator_H ps + 1) / 2.
