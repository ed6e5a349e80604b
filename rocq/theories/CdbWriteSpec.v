(** * Specification: writing a constant database into a file *)
From Verif Require Import Py CdbSpec.
Local Open Scope N_scope.

(** A number in four bytes, the lowest first *)
Definition four_bytes (n : N) : codes := [n mod 256; n / 2 ^ 8 mod 256; n / 2 ^ 16 mod 256; n / 2 ^ 24 mod 256].

(** A record: the two lengths, the key, the value *)
Definition stored_record (kv : codes * codes) : codes :=
  four_bytes (N.of_nat (length kv.1)) ++ four_bytes (N.of_nat (length kv.2)) ++ kv.1 ++ kv.2.

(** A file of which the bytes from 2048 on have been replaced by [d], as far as [d] goes *)
Definition written_at_2048 (data d f : codes) : Prop :=
  d = [] /\ f = data \/
  d <> [] /\ f = take 2048 (data ++ replicate 2048 0) ++ d ++ drop (2048 + length d) data.
