(** * Property theorem C137 (damaged constant databases) *)
From Coq Require Import String.
From Verif Require Import Py CdbModel CdbSpec CdbTornSpec CdbTornProofs.
Local Open Scope N_scope.

(** Any bytes whatever *)
Theorem C137_items_of_any_file : forall file, file <> [] ->
  match cdb_items file with
  | Ok l => (exists eod, u32_at file 0 = Some eod /\ reads file eod 2048 l) /\
      (l = [] \/ 2048 + 8 * N.of_nat (length l) <= N.of_nat (length file)) /\
      forall k v, (k, v) ∈ l -> (exists a b, file = a ++ k ++ b) /\ exists a b, file = a ++ v ++ b
  | Err e => e = StructError /\ ~ exists eod l, u32_at file 0 = Some eod /\ reads file eod 2048 l
  end.
Proof. exact any_items. Qed.
Print Assumptions C137_items_of_any_file.

(** The first n bytes of a database *)
Theorem C137_truncated_file : forall items, Forall ascii_pair items -> cdb_size items < 2 ^ 32 ->
  exists file, cdb_make items = Ok file /\ forall n,
  ((records_end items <= n)%nat -> cdb_items (take n file) = Ok items) /\
  (forall init kv, items = init ++ [kv] -> (records_end init + 8 <= n < records_end items)%nat ->
     cdb_items (take n file) = Ok (init ++ [cut_record (n - records_end init) kv])) /\
  (forall init kv, items = init ++ [kv] -> (0 < n < records_end init + 8)%nat -> cdb_items (take n file) = Err StructError) /\
  (items = [] -> (4 <= n)%nat -> cdb_items (take n file) = Ok []).
Proof. exact make_cut. Qed.
Print Assumptions C137_truncated_file.

Theorem C137_truncation_is_noticed_refuted : ~ forall items file n l, cdb_make items = Ok file -> (n < length file)%nat ->
  cdb_items (take n file) = Ok l -> l = items.
Proof. exact cut_unnoticed. Qed.
Print Assumptions C137_truncation_is_noticed_refuted.

(** Writing was interrupted before the header, which comes last *)
Theorem C137_file_without_header_is_empty : forall out, cdb_items (replicate 2048 0 ++ out) = Ok [] /\
  forall s (D : Type) (d : D), cdb_getitem (replicate 2048 0 ++ out) (KStr s) = Err KeyError /\
    cdb_get (replicate 2048 0 ++ out) (KStr s) d = Ok (inr d).
Proof. exact no_header. Qed.
Print Assumptions C137_file_without_header_is_empty.

Example C137_case : let items := [(str "one", str "Hello"); (str "two", str "Goodbye")] in
  Forall ascii_pair items /\ cdb_size items < 2 ^ 32 /\ (records_end (take 1 items) + 8 <= 2079 < records_end items)%nat /\
  cut_record (2079 - records_end (take 1 items)) (str "two", str "Goodbye") = (str "two", str "Good").
Proof.
  cbv zeta. split; [repeat constructor|]. split; [done|]. split; [apply (bool_decide_unpack _); by vm_compute|by vm_compute].
Qed.
