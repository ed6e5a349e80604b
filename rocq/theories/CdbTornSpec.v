(** * Specification: constant databases that are damaged *)
From Verif Require Import Py CdbSpec.
Local Open Scope N_scope.

(** The bytes from a position on, [len] of them or as many as there are. *)
Definition clip (file : codes) (pos len : N) : codes := take (N.to_nat len) (drop (N.to_nat pos) file).

(** [reads file eod pos l]: the records between the position [pos] and the end of data [eod].
    Each begins with the two lengths, which must be inside of the file. *)
Inductive reads (file : codes) (eod : N) : N -> list (codes * codes) -> Prop :=
  | reads_stop pos : eod <= pos -> reads file eod pos []
  | reads_next pos k v l : pos < eod -> u32_at file pos = Some k -> u32_at file (pos + 4) = Some v ->
      reads file eod (pos + 8 + k + v) l ->
      reads file eod pos ((clip file (pos + 8) k, clip file (pos + 8 + k) v) :: l).

(** The place where the records end that are written for some items. *)
Definition records_end (items : list (codes * codes)) : nat :=
  (2048 + sum_list ((fun kv => 8 + length kv.1 + length kv.2) <$> items))%nat.

(** What is read of the last record if only [n] bytes of it are left. *)
Definition cut_record (n : nat) (kv : codes * codes) : codes * codes :=
  (take (n - 8) kv.1, take (n - 8 - length kv.1) kv.2).
