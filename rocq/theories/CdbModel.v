(** * Model of cdb.py: constant databases *)
From Verif Require Import Py.
Local Open Scope N_scope.

(** cdb.py:19-20, uint32_unpack: [struct.unpack('<L', buf)[0]] *)
Definition uint32_unpack (buf : codes) : res N :=
  match buf with
  | [a; b; c; d] => Ok (a + 256 * (b + 256 * (c + 256 * d)))
  | _ => Err StructError
  end.

(** cdb.py:23-24, uint32_pack: [struct.pack('<L', n)] for n >= 0 *)
Definition uint32_pack (n : N) : res codes :=
  if n <? 2 ^ 32
  then Ok [n mod 256; n / 256 mod 256; n / 65536 mod 256; n / 16777216 mod 256]
  else Err StructError.

(** cdb.py:26 *)
Definition CDB_HASHSTART : N := 5381.

(** A key as the caller passes it. (cdb.py:29, 112, 146) *)
Inductive pykey := KStr (s : codes) | KBytes (b : codes).

(** cdb.py:31-33, one round of the loop *)
Definition hash_step (h c : N) : N := N.lxor (N.land (h + N.shiftl h 5) (2 ^ 32 - 1)) c.

(** cdb.py:29-34, cdb_hash of a str *)
Definition cdb_hash (buf : codes) : N := foldl hash_step CDB_HASHSTART buf.

(** cdb.py:29-34, cdb_hash of any key: the elements of a bytes object are
    integers, for which ord raises TypeError *)
Definition key_hash (k : pykey) : res N :=
  match k with
  | KStr s => Ok (cdb_hash s)
  | KBytes [] => Ok CDB_HASHSTART
  | KBytes _ => Err TypeError
  end.

(** [len(key)], cdb.py:107, 139, 142 *)
Definition key_len (k : pykey) : N :=
  match k with KStr s | KBytes s => N.of_nat (length s) end.

(** Slicing of bytes and of a mmap: [buf[pos:pos+n]] (used throughout cdb.py:44-144) *)
Definition slice (buf : codes) (pos n : N) : codes := take (N.to_nat n) (drop (N.to_nat pos) buf).

(** ** Reading *)

(** cdb.py:43-44: an empty file cannot be mapped; then the attribute eod *)
Definition cdb_eod (map : codes) : res N :=
  if decide (map = []) then Err ValueError else uint32_unpack (slice map 0 4).

(** cdb.py:58-70, __iter__ from the position [len]; every round advances by at
    least 8, so [eod] rounds are enough. *)
Fixpoint cdb_iter (fuel : nat) (map : codes) (eod len : N) : res (list (codes * codes)) :=
  match fuel with
  | O => Ok []
  | S fuel =>
      if len <? eod then
        let hd := slice map len 8 in
        rbind (uint32_unpack (slice hd 0 4)) (fun klen =>
        rbind (uint32_unpack (slice hd 4 4)) (fun vlen =>
        let key := slice map (len + 8) klen in
        let val := slice map (len + 8 + klen) vlen in
        rbind (cdb_iter fuel map eod (len + 8 + klen + vlen)) (fun l => Ok ((key, val) :: l))))
      else Ok []
  end.

(** cdb.py:81-85, items *)
Definition cdb_items (map : codes) : res (list (codes * codes)) :=
  rbind (cdb_eod map) (fun eod => cdb_iter (N.to_nat eod) map eod 2048).

(** cdb.py:87-97, keys and values *)
Definition cdb_keys (map : codes) : res (list codes) := rbind (cdb_items map) (fun l => Ok (fst <$> l)).
(** cdb.py:93-97, values *)
Definition cdb_values (map : codes) : res (list codes) := rbind (cdb_items map) (fun l => Ok (snd <$> l)).

(** cdb.py:106-110, match: a str never equals a bytes object *)
Definition cdb_match (map : codes) (key : pykey) (pos : N) : bool :=
  match key with
  | KStr _ => false
  | KBytes b => bool_decide (b = slice map pos (N.of_nat (length b)))
  end.

(** cdb.py:127-143, the loop of findnext; [n] is hslots - loop *)
Fixpoint find_loop (n : nat) (map : codes) (key : pykey) (khash hpos hslots kpos : N) : res codes :=
  match n with
  | O => Err KeyError
  | S n =>
      let buf := slice map kpos 8 in
      rbind (uint32_unpack (drop 4 buf)) (fun pos =>
      if pos =? 0 then Err KeyError else
      let kpos := kpos + 8 in
      let kpos := if kpos =? hpos + N.shiftl hslots 3 then hpos else kpos in
      rbind (uint32_unpack (take 4 buf)) (fun u =>
      if u =? khash then
        let buf := slice map pos 8 in
        rbind (uint32_unpack (take 4 buf)) (fun u =>
        if u =? key_len key then
          if cdb_match map key (pos + 8)
          then rbind (uint32_unpack (drop 4 buf)) (fun dlen =>
               Ok (slice map (pos + 8 + key_len key) dlen))
          else find_loop n map key khash hpos hslots kpos
        else find_loop n map key khash hpos hslots kpos)
      else find_loop n map key khash hpos hslots kpos))
  end.

(** cdb.py:112-144 and 146-148, __getitem__: findstart, then findnext *)
Definition cdb_getitem (map : codes) (key : pykey) : res codes :=
  rbind (key_hash key) (fun u =>
  let buf := slice map (N.land (N.shiftl u 3) 2047) 8 in
  rbind (uint32_unpack (drop 4 buf)) (fun hslots =>
  if hslots =? 0 then Err KeyError else
  rbind (uint32_unpack (take 4 buf)) (fun hpos =>
  find_loop (N.to_nat hslots) map key u hpos hslots
    (hpos + N.shiftl (N.shiftr u 8 mod hslots) 3)))).

(** cdb.py:150-155, get *)
Definition cdb_get {D} (map : codes) (key : pykey) (dflt : D) : res (codes + D) :=
  match cdb_getitem map key with
  | Ok v => Ok (inl v)
  | Err KeyError => Ok (inr dflt)
  | Err e => Err e
  end.

(** ** Writing *)

(** [bytes(c, 'utf-8')] of one character (cdb.py:175-176) *)
Definition utf8_char (c : N) : res codes :=
  if c <? 128 then Ok [c]
  else if c <? 2048 then Ok [192 + c / 64; 128 + c mod 64]
  else if (55296 <=? c) && (c <=? 57343) then Err UnicodeEncodeError
  else if c <? 65536 then Ok [224 + c / 4096; 128 + c / 64 mod 64; 128 + c mod 64]
  else Ok [240 + c / 262144; 128 + c / 4096 mod 64; 128 + c / 64 mod 64; 128 + c mod 64].

(** [bytes(s, 'utf-8')], cdb.py:175-176 *)
Fixpoint utf8 (s : codes) : res codes :=
  match s with
  | [] => Ok []
  | c :: s => rbind (utf8_char c) (fun b => rbind (utf8 s) (fun r => Ok (b ++ r)))
  end.

(** cdb.py:172-178: the loop over the items; returns the bytes written, the
    value of pos (which counts characters), and for each record its (h, pos) in
    order.  The dictionary [tables] groups that list by [h & 255]. *)
Fixpoint put_items (items : list (codes * codes)) (pos : N) : res (codes * N * list (N * N)) :=
  match items with
  | [] => Ok ([], pos, [])
  | (key, value) :: items =>
      rbind (uint32_pack (N.of_nat (length key))) (fun klen =>
      rbind (uint32_pack (N.of_nat (length value))) (fun vlen =>
      rbind (utf8 key) (fun k =>
      rbind (utf8 value) (fun v =>
      rbind (put_items items (pos + 8 + N.of_nat (length key) + N.of_nat (length value)))
        (fun '(out, pos', es) =>
      Ok (klen ++ vlen ++ k ++ v ++ out, pos', (cdb_hash key, pos) :: es))))))
  end.

(** cdb.py:183, tables.get(i, []) *)
Definition entries_of (es : list (N * N)) (i : N) : list (N * N) :=
  List.filter (fun e => N.land e.1 255 =? i) es.

(** A slot of a table being built: None is the object null, cdb.py:186 *)
Notation slot := (option (N * N)).

(** cdb.py:190-191: [while table[n] is not null: n = (n + 1) % nslots].  If
    [fuel] = nslots rounds do not find a free slot, the loop runs forever. *)
Fixpoint probe (fuel : nat) (table : list slot) (n : nat) : option nat :=
  match fuel with
  | O => None
  | S fuel => match table !! n with
              | Some None => Some n
              | _ => probe fuel table ((n + 1) mod length table)%nat
              end
  end.

(** The loop cdb.py:190-191 does not end; not an exception of Python. *)
Definition Diverges : exn := OtherError 1.

(** cdb.py:188-192, one entry *)
Definition place (table : list slot) (e : N * N) : res (list slot) :=
  let n := N.to_nat (N.shiftr e.1 8 mod N.of_nat (length table)) in
  match probe (length table) table n with
  | Some n => Ok (<[n := Some e]> table)
  | None => Err Diverges
  end.

(** cdb.py:188-192, the loop over the entries *)
Fixpoint place_all (table : list slot) (es : list (N * N)) : res (list slot) :=
  match es with
  | [] => Ok table
  | e :: es => rbind (place table e) (fun table => place_all table es)
  end.

(** cdb.py:193-194: writing the slots *)
Fixpoint put_table (table : list slot) : res codes :=
  match table with
  | [] => Ok []
  | s :: table =>
      let '(h, p) := default (0, 0) s in
      rbind (uint32_pack h) (fun h =>
      rbind (uint32_pack p) (fun p =>
      rbind (put_table table) (fun r => Ok (h ++ p ++ r))))
  end.

(** cdb.py:182-195: the loop over the table numbers [is]; returns what is
    appended to [final] and what is written *)
Fixpoint put_tables (is : list N) (es : list (N * N)) (pos : N) : res (codes * codes) :=
  match is with
  | [] => Ok ([], [])
  | i :: is =>
      let entries := entries_of es i in
      let nslots := (2 * length entries)%nat in
      rbind (uint32_pack pos) (fun p =>
      rbind (uint32_pack (N.of_nat nslots)) (fun n =>
      rbind (place_all (replicate nslots None) entries) (fun table =>
      rbind (put_table table) (fun out =>
      rbind (put_tables is es (pos + 8 * N.of_nat nslots)) (fun '(final, outs) =>
      Ok (p ++ n ++ final, out ++ outs))))))
  end.

(** cdb.py:166-200, cdb_make on an empty file: the contents of the file
    afterwards.  (What has been written when an exception is raised in the middle:
    CdbWriteModel.v.) *)
Definition cdb_make (items : list (codes * codes)) : res codes :=
  rbind (put_items items 2048) (fun '(out, pos, es) =>
  rbind (put_tables (N.of_nat <$> seq 0 256) es pos) (fun '(final, outs) =>
  Ok (final ++ out ++ outs))).
