(** * How much a text is blown up *)
From Verif Require Import Py TrainSpec.

Definition token_size (w : pyword) : nat :=
  match w with WStr s => length s | WBytes b => length b | WNone => 0 end.

(** All characters of all tokens. *)
Definition total_size (ts : list pyword) : nat := sum_list_with token_size ts.

(** The words of all learned messages, counted per message. *)
Definition all_words (ms : list message) : nat := sum_list_with (fun m => length m.1) ms.
