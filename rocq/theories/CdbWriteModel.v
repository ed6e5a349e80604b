(** * Model of cdb_make, write by write (cdb.py:166-200)
    CdbModel.cdb_make gives the contents of an empty file after a run that
    succeeds.  Here the file may have contents already, and what has been written
    when an exception ends the run is kept. *)
From Verif Require Import Py CdbModel.
Local Open Scope N_scope.

(** The argument outfile of cdb_make (cdb.py:166), a binary file that can be
    written at any position.  [of_left] is the number of calls of write that are
    carried out before an exception from outside (the disk is full, the user
    interrupts the program) ends the run; None if there is none.  What is in the
    buffer of the file counts as written, as it is once the file is closed. *)
Record outfile := { of_data : codes; of_pos : nat; of_left : option nat }.

(** The exception from outside (cdb.py:174, 176, 177, 194, 200) *)
Definition Stopped : exn := OtherError 2.

(** The effect of write on the contents (cdb.py:174): a gap between the end of
    the file and the position is filled with zeros; writing nothing does nothing. *)
Definition over (data : codes) (pos : nat) (d : codes) : codes :=
  match d with
  | [] => data
  | _ => take pos (data ++ replicate (pos - length data) 0) ++ d ++ drop (pos + length d) data
  end.

(** [outfile.write(d)], cdb.py:174 *)
Definition fwrite (d : codes) : M outfile unit := fun f =>
  match of_left f with
  | Some O => (f, Err Stopped)
  | l => ({| of_data := over (of_data f) (of_pos f) d; of_pos := of_pos f + length d; of_left := pred <$> l |}, Ok tt)
  end.

(** [outfile.seek(pos)], cdb.py:171, 199 *)
Definition fseek (pos : nat) : M outfile unit := fun f =>
  ({| of_data := of_data f; of_pos := pos; of_left := of_left f |}, Ok tt).

(** An expression without effects (cdb.py:174, 176, 177, 185, 188-192, 194) *)
Definition pure {A} (r : res A) : M outfile A := fun f => (f, r).

(** cdb.py:172-179: the loop over the items.  [stop] is the exception with which
    the iterable ends, if any. *)
Fixpoint write_items (items : list (codes * codes)) (stop : option exn) (pos : N) : M outfile (N * list (N * N)) :=
  match items with
  | [] => match stop with None => mret (pos, []) | Some e => merr e end
  | (key, value) :: items =>
      mbind (pure (uint32_pack (N.of_nat (length key)))) (fun klen =>
      mbind (pure (uint32_pack (N.of_nat (length value)))) (fun vlen =>
      mbind (fwrite (klen ++ vlen)) (fun _ =>
      mbind (pure (utf8 key)) (fun k =>
      mbind (fwrite k) (fun _ =>
      mbind (pure (utf8 value)) (fun v =>
      mbind (fwrite v) (fun _ =>
      mbind (write_items items stop (pos + 8 + N.of_nat (length key) + N.of_nat (length value))) (fun '(pos', es) =>
      mret (pos', (cdb_hash key, pos) :: es)))))))))
  end.

(** cdb.py:193-195: writing the slots of one table *)
Definition write_table (table : list slot) : M outfile unit :=
  mfor table (fun s =>
    let '(h, p) := default (0, 0) s in
    mbind (pure (uint32_pack h)) (fun h =>
    mbind (pure (uint32_pack p)) (fun p =>
    fwrite (h ++ p)))).

(** cdb.py:182-195: the loop over the table numbers [is]; returns [final] *)
Fixpoint write_tables (is : list N) (es : list (N * N)) (pos : N) : M outfile codes :=
  match is with
  | [] => mret []
  | i :: is =>
      let entries := entries_of es i in
      let nslots := (2 * length entries)%nat in
      mbind (pure (uint32_pack pos)) (fun p =>
      mbind (pure (uint32_pack (N.of_nat nslots))) (fun n =>
      mbind (pure (place_all (replicate nslots None) entries)) (fun table =>
      mbind (write_table table) (fun _ =>
      mbind (write_tables is es (pos + 8 * N.of_nat nslots)) (fun final =>
      mret (p ++ n ++ final))))))
  end.

(** cdb.py:166-200, cdb_make *)
Definition cdb_make_on (items : list (codes * codes)) (stop : option exn) : M outfile unit :=
  mbind (fseek (N.to_nat 2048)) (fun _ =>
  mbind (write_items items stop 2048) (fun '(pos, es) =>
  mbind (write_tables (N.of_nat <$> seq 0 256) es pos) (fun final =>
  mbind (fseek 0) (fun _ =>
  fwrite final)))).

(** The contents of the file afterwards, and how the call ended: [data] are the
    contents of the file passed as outfile, cdb.py:166 *)
Definition cdb_make_over (data : codes) (left : option nat) (items : list (codes * codes)) (stop : option exn) : codes * res unit :=
  let '(f, r) := cdb_make_on items stop {| of_data := data; of_pos := 0; of_left := left |} in
  (of_data f, r).
