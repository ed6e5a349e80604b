(** * Model of CDBClassifier, sbclassifier/classifiers/storage.py:584-646 *)
From Coq Require Import String Decimal DecimalZ.
From Verif Require Import Py NumModel ClassifierModel ShelveModel.

(** ** Integers as text *)

(** Digits of a decimal number, as formatted at storage.py:643-644 *)
Fixpoint uint_codes (u : Decimal.uint) : codes :=
  match u with
  | Nil => []
  | D0 u => 48%N :: uint_codes u | D1 u => 49%N :: uint_codes u | D2 u => 50%N :: uint_codes u
  | D3 u => 51%N :: uint_codes u | D4 u => 52%N :: uint_codes u | D5 u => 53%N :: uint_codes u
  | D6 u => 54%N :: uint_codes u | D7 u => 55%N :: uint_codes u | D8 u => 56%N :: uint_codes u
  | D9 u => 57%N :: uint_codes u
  end.

(** ['{:d}'.format(z)], storage.py:643-644 *)
Definition fmt_d (z : Z) : codes :=
  match Z.to_int z with
  | Pos u => uint_codes u
  | Neg u => 45%N :: uint_codes u
  end.

(** The digits read back by int(), storage.py:626, 631 *)
Fixpoint codes_uint (s : codes) : option Decimal.uint :=
  match s with
  | [] => Some Nil
  | c :: s =>
      u ← codes_uint s;
      if (c =? 48)%N then Some (D0 u) else if (c =? 49)%N then Some (D1 u)
      else if (c =? 50)%N then Some (D2 u) else if (c =? 51)%N then Some (D3 u)
      else if (c =? 52)%N then Some (D4 u) else if (c =? 53)%N then Some (D5 u)
      else if (c =? 54)%N then Some (D6 u) else if (c =? 55)%N then Some (D7 u)
      else if (c =? 56)%N then Some (D8 u) else if (c =? 57)%N then Some (D9 u)
      else None
  end.

(** [int(s)], storage.py:626 and 631, for an optional minus sign and ASCII digits;
    everything else counts as invalid here (Python also accepts surrounding
    blanks, a plus sign, underscores and other digits). *)
Definition py_int (s : codes) : res Z :=
  let '(neg, ds) := match s with c :: r => if (c =? 45)%N then (true, r) else (false, s) | [] => (false, s) end in
  match ds, codes_uint ds with
  | _ :: _, Some u => Ok (Z.of_int (if neg : bool then Neg u else Pos u))
  | _, _ => Err ValueError
  end.

(** [s.split(',')] (storage.py:627, 631) *)
Fixpoint split_comma (s : codes) : list codes :=
  match s with
  | [] => [[]]
  | c :: s =>
      if (c =? 44)%N then [] :: split_comma s
      else match split_comma s with
           | p :: ps => (c :: p) :: ps
           | [] => [[c]]
           end
  end.

(** The list comprehension at storage.py:626-627 and the generator at storage.py:631 *)
Fixpoint ints (l : list codes) : res (list Z) :=
  match l with
  | [] => Ok []
  | s :: l => rbind (py_int s) (fun n => rbind (ints l) (fun ns => Ok (n :: ns)))
  end.

(** storage.py:643-644: ['{:d},{:d}'.format(a, b)] *)
Definition fmt_pair (a b : Z) : codes := fmt_d a ++ 44%N :: fmt_d b.

(** storage.py:631, from_string: the numbers are passed to
    [WordInfo(spamcount=0, hamcount=0)], basic.py:153, in their order *)
Definition from_string (s : codes) : res winfo :=
  rbind (ints (split_comma s)) (fun ns =>
  match ns with
  | [] => Ok (WI 0 0)
  | [a] => Ok (WI a 0)
  | [a; b] => Ok (WI a b)
  | _ => Err TypeError
  end).

(** ** The classifier *)

(** The module called cdb in lines 625 and 646: what [cdb.write] puts into the
    file, and the pairs of the mapping that [cdb.read] returns, of which indexing
    finds the first with the key.  X is the type of file contents. (storage.py:625, 646) *)
Record cdbmod (X : Type) := CdbMod {
  cm_write : list (pyword * codes) -> res X;
  cm_read : X -> res (list (pyword * codes))
}.
Global Arguments cm_write {X} _ _.
Global Arguments cm_read {X} _ _.

(** A global name: None when it is not defined, as is the case for cdb, whose
    import is commented out (storage.py:57; lines 61-66 bind other names). *)
Definition global {T} (x : option T) : res T := match x with Some t => Ok t | None => Err NameError end.

(** [data[key]] (storage.py:627) *)
Fixpoint pairs_get (l : list (pyword * codes)) (k : pyword) : res codes :=
  match l with
  | [] => Err KeyError
  | (k', v) :: l => if decide (k' = k) then Ok v else pairs_get l k
  end.

Section cdbclass.
  Context {A : num} {X : Type}.
  Notation mobj := (obj A (gmap pyword winfo)).

  (** The order in which [self.wordinfo.items()] lists the dictionary. *)
  Context (ord : gmap pyword winfo -> list (pyword * winfo)).

  (** storage.py:642-646, store *)
  Definition cdb_items_of (o : mobj) : list (pyword * codes) :=
    (WStr STATE_KEY, fmt_pair (o_nham o) (o_nspam o)) ::
    ((fun wr => (wr.1, fmt_pair (hamcount wr.2) (spamcount wr.2))) <$> ord (o_store o)).

  (** storage.py:642-646, store *)
  Definition cdb_store (cdb : option (cdbmod X)) (o : mobj) : res X :=
    rbind (global cdb) (fun m => cm_write m (cdb_items_of o)).

  (** storage.py:632-633: the dictionary comprehension; a later pair replaces an
      earlier one with the same key *)
  Fixpoint read_words (l : list (pyword * codes)) (acc : gmap pyword winfo) : res (gmap pyword winfo) :=
    match l with
    | [] => Ok acc
    | (k, v) :: l =>
        if decide (k = WStr STATE_KEY) then read_words l acc
        else rbind (from_string v) (fun r => read_words l (<[k := r]> acc))
    end.

  (** storage.py:623-640, load; [file] is None when the file does not exist *)
  Definition cdb_load (cdb : option (cdbmod X)) (file : option X) : M mobj unit := fun o =>
    match file with
    | None => (Obj (o_bigrams o) 0 0 (o_cache o) ∅, Ok tt)
    | Some x =>
        match rbind (global cdb) (fun m => rbind (cm_read m x) (fun data =>
              rbind (pairs_get data (WStr STATE_KEY)) (fun s =>
              rbind (ints (split_comma s)) (fun ns => Ok (data, ns))))) with
        | Err e => (o, Err e)
        | Ok (data, [nham; nspam]) =>
            let o := Obj (o_bigrams o) nspam nham (o_cache o) (o_store o) in
            match read_words data ∅ with
            | Err e => (o, Err e)
            | Ok words => (Obj (o_bigrams o) nspam nham (o_cache o) words, Ok tt)
            end
        | Ok _ => (o, Err ValueError)
        end
    end.

  (** storage.py:593-597 with basic.py:180-188: the constructor *)
  Definition cdb_open (cdb : option (cdbmod X)) (file : option X) : mobj * res unit :=
    cdb_load cdb file (c_new false ∅).
End cdbclass.
