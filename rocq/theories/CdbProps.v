(** * Property theorems C32 and C34 - C36 (constant databases) *)
From Coq Require Import String.
From Verif Require Import Py NumModel ClassifierModel ShelveModel CdbModel CdbSpec CdbClassModel CdbClassSpec
  CdbProofs CdbClassProofs.
Local Open Scope N_scope.

(** ** C32 *)
Theorem C32_cdb_classifier_cannot_persist :
  forall (A : num) (X : Type) ord (o : obj A (gmap pyword winfo)) (x : X),
  cdb_store ord (None : option (cdbmod X)) o = Err NameError /\
  cdb_load None (Some x) o = (o, Err NameError).
Proof. intros A X ord o x. exact (conj eq_refl eq_refl). Qed.
Print Assumptions C32_cdb_classifier_cannot_persist.

Theorem C32_format_swaps_ham_and_spam :
  forall (A : num) (X : Type) ord (m : cdbmod X) (o : obj A (gmap pyword winfo)),
  cdbmod_ok m -> dict_order_ok ord -> exists x,
  cdb_store ord (Some m) o = Ok x /\
  forall o' : obj A (gmap pyword winfo), exists o2, cdb_load (Some m) (Some x) o' = (o2, Ok tt) /\
    o_nspam o2 = o_nspam o /\ o_nham o2 = o_nham o /\
    forall w, w <> WStr STATE_KEY -> o_store o2 !! w = swapped <$> o_store o !! w.
Proof. intros A X ord m o. exact (cdb_would_swap ord m o). Qed.
Print Assumptions C32_format_swaps_ham_and_spam.

Example C32_case : cdbmod_ok (CdbMod (list (pyword * codes)) Ok Ok) /\ dict_order_ok map_to_list /\
  swapped (WI 3 1) <> WI 3 1.
Proof. split_and!; [intros items; by exists items|by intros m|done]. Qed.

(** ** C34 *)
Theorem C34_items_of_a_written_cdb :
  forall items, Forall ascii_pair items -> cdb_size items < 2 ^ 32 ->
  exists file, cdb_make items = Ok file /\ cdb_items file = Ok items /\
    cdb_keys file = Ok items.*1 /\ cdb_values file = Ok items.*2.
Proof. exact make_items. Qed.
Print Assumptions C34_items_of_a_written_cdb.

Theorem C34_non_ascii_round_trip_refuted :
  ~ forall items file enc, cdb_make items = Ok file ->
    Forall2 (fun kv e => utf8 kv.1 = Ok e.1 /\ utf8 kv.2 = Ok e.2) items enc -> cdb_items file = Ok enc.
Proof. exact non_ascii_refuted. Qed.
Print Assumptions C34_non_ascii_round_trip_refuted.

Example C34_case : let items := [(str "one", str "Hello"); (str "two", str "Goodbye"); (str "one", str "World")] in
  Forall ascii_pair items /\ cdb_size items < 2 ^ 32.
Proof. cbv zeta. split; [|done]. repeat constructor. Qed.

(** ** C35 *)
Theorem C35_cdb_make_writes_a_correct_database :
  forall items, Forall ascii_pair items -> cdb_size items < 2 ^ 32 ->
  exists file, cdb_make items = Ok file /\ forall key, djb_find file key = first_value items key.
Proof. exact make_find. Qed.
Print Assumptions C35_cdb_make_writes_a_correct_database.

(** Two keys with the same hash value, so that probing takes place. *)
Example C35_case : let items := [([96; 65], str "x"); ([97; 96], str "y"); ([97; 96], str "z")] in
  Forall ascii_pair items /\ cdb_size items < 2 ^ 32 /\ djb_hash [96; 65] = djb_hash [97; 96] /\
  first_value items [97; 96] = Some (str "y") /\ first_value items [97; 97] = None.
Proof. cbv zeta. split; [|done]. repeat constructor. Qed.

(** ** C36 *)
Theorem C36_lookup_never_succeeds :
  forall file key, key <> KBytes [] ->
  cdb_getitem file key = Err match key with KStr _ => KeyError | KBytes _ => TypeError end \/
  (exists s, key = KStr s) /\ cdb_getitem file key = Err StructError.
Proof. exact getitem_never. Qed.
Print Assumptions C36_lookup_never_succeeds.

Theorem C36_get_returns_the_default :
  forall items, Forall ascii_pair items -> cdb_size items < 2 ^ 32 ->
  exists file, cdb_make items = Ok file /\
    forall s (D : Type) (d : D), cdb_getitem file (KStr s) = Err KeyError /\ cdb_get file (KStr s) d = Ok (inr d).
Proof. exact make_get. Qed.
Print Assumptions C36_get_returns_the_default.

Theorem C36_get_hides_only_the_key_error :
  forall (D : Type) file key (d : D), key <> KBytes [] ->
  cdb_get file key d = Ok (inr d) /\ cdb_getitem file key = Err KeyError \/
  cdb_get file key d = Err TypeError /\ (exists b, key = KBytes b) \/
  cdb_get file key d = Err StructError /\ (exists s, key = KStr s) /\ cdb_getitem file key = Err StructError.
Proof. intros D. exact get_never. Qed.
Print Assumptions C36_get_hides_only_the_key_error.

Example C36_case : let items := [(str "one", str "Hello")] in
  Forall ascii_pair items /\ cdb_size items < 2 ^ 32 /\ KStr (str "one") <> KBytes [].
Proof. cbv zeta. split_and!; [|done|done]. repeat constructor. Qed.
