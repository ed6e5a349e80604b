(** * How byte words are written in the name of a pair (C141) *)
From Coq Require Import String.
From Verif Require Import Py.

Inductive shown_byte (q : N) : N -> codes -> Prop :=
  | shown_plain c : (32 <= c <= 126)%N -> c <> q -> c <> 92%N -> shown_byte q c [c]
  | shown_quote : shown_byte q q [92; q]%N
  | shown_backslash : shown_byte q 92 (str "\\")
  | shown_tab : shown_byte q 9 (str "\t")
  | shown_newline : shown_byte q 10 (str "\n")
  | shown_return : shown_byte q 13 (str "\r")
  | shown_other c (hi lo : nat) x y : (c < 32)%N \/ (126 < c)%N -> c <> 9%N -> c <> 10%N -> c <> 13%N ->
      c = (16 * N.of_nat hi + N.of_nat lo)%N -> str "0123456789abcdef" !! hi = Some x -> str "0123456789abcdef" !! lo = Some y ->
      shown_byte q c (str "\x" ++ [x; y]).

(** Double quotes are used for a word with single but no double quotes. *)
Definition quoted_with (b : codes) (q : N) : Prop :=
  (39%N ∈ b /\ 34%N ∉ b -> q = 34%N) /\ (39%N ∉ b \/ 34%N ∈ b -> q = 39%N).

Definition shown (b t : codes) : Prop :=
  exists q ts, quoted_with b q /\ Forall2 (shown_byte q) b ts /\ t = str "b" ++ [q] ++ mjoin ts ++ [q].
