(** * Specification of constant databases (http://cr.yp.to/cdb/cdb.txt) *)
From Verif Require Import Py.
Local Open Scope N_scope.

(** A 32-bit little-endian number at a position. *)
Definition u32_at (file : codes) (pos : N) : option N :=
  match take 4 (drop (N.to_nat pos) file) with
  | [a; b; c; d] => Some (a + 2 ^ 8 * b + 2 ^ 16 * c + 2 ^ 24 * d)
  | _ => None
  end.

(** "The cdb hash function is h = ((h << 5) + h) ^ c, with a starting hash of
    5381", in 32-bit arithmetic on bytes. *)
Definition djb_hash (key : codes) : N :=
  foldl (fun h c => N.lxor ((32 * h + h) mod 2 ^ 32) c) 5381 key.

(** The bytes [len] long at a position. *)
Definition bytes_at (file : codes) (pos len : N) : option codes :=
  let b := take (N.to_nat len) (drop (N.to_nat pos) file) in
  if N.of_nat (length b) =? len then Some b else None.

(** The value of the record at a position if its key is [key]. *)
Definition record_at (file : codes) (pos : N) (key : codes) : option codes :=
  match u32_at file pos, u32_at file (pos + 4) with
  | Some klen, Some dlen =>
      if bool_decide (bytes_at file (pos + 8) klen = Some key)
      then bytes_at file (pos + 8 + klen) dlen
      else None
  | _, _ => None
  end.

(** "Probe that slot, the next higher slot, and so on, until you find the record
    or run into an empty slot"; after the last slot comes the first.  [n] slots
    remain to be probed. *)
Fixpoint djb_probe (n : nat) (file : codes) (tpos len h i : N) (key : codes) : option codes :=
  match n with
  | O => None
  | S n =>
      match u32_at file (tpos + 8 * i), u32_at file (tpos + 8 * i + 4) with
      | Some h', Some p =>
          if p =? 0 then None
          else match (if h' =? h then record_at file p key else None) with
               | Some v => Some v
               | None => djb_probe n file tpos len h ((i + 1) mod len) key
               end
      | _, _ => None
      end
  end.

(** "The hash value modulo 256 is the number of a hash table. The hash value
    divided by 256, modulo the length of that table, is a slot number." *)
Definition djb_find (file : codes) (key : codes) : option codes :=
  let h := djb_hash key in
  match u32_at file (8 * (h mod 256)), u32_at file (8 * (h mod 256) + 4) with
  | Some tpos, Some len =>
      if len =? 0 then None
      else djb_probe (N.to_nat len) file tpos len h (h / 256 mod len) key
  | _, _ => None
  end.

(** The value of the first pair with a key. *)
Fixpoint first_value (items : list (codes * codes)) (key : codes) : option codes :=
  match items with
  | [] => None
  | (k, v) :: items => if bool_decide (k = key) then Some v else first_value items key
  end.

Definition ascii_text (s : codes) : Prop := Forall (fun c => c < 128) s.
Definition ascii_pair (kv : codes * codes) : Prop := ascii_text kv.1 /\ ascii_text kv.2.

(** The size of the file: header, records, and two slots per record. *)
Definition cdb_size (items : list (codes * codes)) : N :=
  2048 + foldr (fun kv n => 24 + N.of_nat (length kv.1) + N.of_nat (length kv.2) + n) 0 items.
