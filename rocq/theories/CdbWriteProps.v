(** * Property theorem C147 (writing a constant database into a file) *)
From Coq Require Import String.
From Verif Require Import Py CdbModel CdbSpec CdbWriteModel CdbWriteSpec CdbWriteProofs.
Local Open Scope N_scope.

(** However the run ends: success means the whole database, failure means that the header is as before *)
Theorem C147_how_a_run_ends : forall data left items stop f r, cdb_make_over data left items stop = (f, r) ->
  match r with
  | Ok _ => stop = None /\ exists file, cdb_make items = Ok file /\ f = file ++ drop (length file) data
  | Err e => exists d, written_at_2048 data d f
  end.
Proof. exact run_ends. Qed.
Print Assumptions C147_how_a_run_ends.

(** If nothing from outside disturbs the run *)
Theorem C147_undisturbed_run : forall data items,
  match cdb_make items with
  | Ok file => cdb_make_over data None items None = (file ++ drop (length file) data, Ok tt)
  | Err e => (cdb_make_over data None items None).2 = Err e
  end.
Proof. exact run_undisturbed. Qed.
Print Assumptions C147_undisturbed_run.

(** Whatever was in the file, a database written over it is read correctly *)
Theorem C147_database_over_any_file : forall data items, Forall ascii_pair items -> cdb_size items < 2 ^ 32 ->
  exists f, cdb_make_over data None items None = (f, Ok tt) /\ cdb_items f = Ok items /\
  forall key, djb_find f key = first_value items key.
Proof. exact run_database. Qed.
Print Assumptions C147_database_over_any_file.

(** A run on a new file that fails, for whatever reason *)
Theorem C147_failed_run_leaves_an_empty_database : forall left items stop f e,
  cdb_make_over [] left items stop = (f, Err e) ->
  f = [] \/ cdb_items f = Ok [] /\
    forall s (D : Type) (d : D), cdb_getitem f (KStr s) = Err KeyError /\ cdb_get f (KStr s) d = Ok (inr d).
Proof. exact run_fails_empty. Qed.
Print Assumptions C147_failed_run_leaves_an_empty_database.

(** A value that cannot be encoded: the records before it have been written, and the key *)
Theorem C147_value_that_cannot_be_encoded : forall stop data init k v rest e,
  Forall ascii_pair init -> cdb_size init < 2 ^ 32 ->
  Forall (fun c => c < 128) k -> N.of_nat (length k) < 2 ^ 32 -> N.of_nat (length v) < 2 ^ 32 -> utf8 v = Err e ->
  exists f, cdb_make_over data None (init ++ (k, v) :: rest) stop = (f, Err e) /\
  written_at_2048 data
    (concat (stored_record <$> init) ++ four_bytes (N.of_nat (length k)) ++ four_bytes (N.of_nat (length v)) ++ k) f.
Proof. exact run_bad_value. Qed.
Print Assumptions C147_value_that_cannot_be_encoded.

(** A database that was in the file does not survive a failed run *)
Theorem C147_old_database_survives_refuted : ~ forall old data items f e,
  cdb_make old = Ok data -> cdb_items data = Ok old ->
  cdb_make_over data None items None = (f, Err e) -> cdb_items f = Ok old.
Proof. exact old_lost. Qed.
Print Assumptions C147_old_database_survives_refuted.

Example C147_case : let init := [(str "one", str "Hello")] in let items := init ++ [(str "two", [0xd800])] in
  Forall ascii_pair init /\ cdb_size init < 2 ^ 32 /\ utf8 [0xd800] = Err UnicodeEncodeError /\
  (cdb_make_over [] None items None).2 = Err UnicodeEncodeError /\
  (cdb_make_over [] (Some 3%nat) init None).2 = Err Stopped /\
  drop (N.to_nat 2048) (cdb_make_over [] (Some 3%nat) init None).1 = [3; 0; 0; 0; 5; 0; 0; 0] ++ str "oneHello" /\
  (cdb_make_over [] (Some 6%nat) init None).2 = Ok tt.
Proof. cbv zeta. split; [repeat constructor|]. split_and!; by vm_compute. Qed.
