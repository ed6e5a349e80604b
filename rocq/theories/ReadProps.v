(** * Property theorems C103, C104 (reading and emptying a corpus) *)
From Coq Require Import String.
From Verif Require Import Py CacheModel CacheSpec MessageModel ReadModel ReadSpec ReadProofs.

(** ** C103 *)
Theorem C103_reading_agrees :
  forall (C T : Type) (em : emailpkg C) (order : gset key -> list key), order_ok order ->
  forall (xs : list (@kop C T)) c, reached em xs c ->
  NoDup (keys_list order c) /\
  (forall k, contains order c k = true <-> k ∈ keys_list order c) /\
  (forall k, k ∈ keys_list order c <-> exists m, k_getitem em c k = Ok m) /\
  (forall k, k ∉ keys_list order c -> k_getitem em c k = Err KeyError) /\
  (forall k dflt, k_get em c k dflt = Ok (match k_getitem em c k with Ok m => Some m | Err _ => dflt end)).
Proof. intros C T em order Ho xs c. exact (reading em order Ho xs c). Qed.
Print Assumptions C103_reading_agrees.

Theorem C103_values_of_the_default_corpus :
  forall (C T : Type) (em : emailpkg C) (order : gset key -> list key), order_ok order ->
  forall max d (xs : list (@kop C T)), let c := run_kops em xs (naive_new max d) in
  k_len c = length (keys_list order c) /\
  exists ms, k_values em order c = (ms, None) /\ Forall2 (fun k m => k_getitem em c k = Ok m) (keys_list order c) ms.
Proof. intros C T em order Ho max d xs. exact (naive_values em order Ho max d xs). Qed.
Print Assumptions C103_values_of_the_default_corpus.

Theorem C103_values_of_a_directory :
  forall (C T : Type) (em : emailpkg C) (order : gset key -> list key), order_ok order ->
  forall matches max d (xs : list (@kop C T)), email_ok em -> let c := run_kops em xs (file_new matches max d) in
  (forall f, f ∈ message_files matches (k_dir c) -> f ∉ [str "Statistics start date"; str "Persistent statistics"]) ->
  exists ms, k_values em order c = (ms, None) /\
    Forall2 (fun k m => m_id m = k /\ exists m', k_getitem em c k = Ok m' /\
      as_bytes em (m_content m) = as_bytes em (m_content m')) (keys_list order c) ms.
Proof. intros C T em order Ho matches max d xs. exact (values_bytes em order Ho matches max d xs). Qed.
Print Assumptions C103_values_of_a_directory.

Theorem C103_a_file_with_a_reserved_name_blocks_values :
  forall (C T : Type) (em : emailpkg C) (order : gset key -> list key), order_ok order ->
  forall matches max d (xs : list (@kop C T)), let c := run_kops em xs (file_new matches max d) in
  (exists f, f ∈ message_files matches (k_dir c) /\ f ∈ [str "Statistics start date"; str "Persistent statistics"]) ->
  (exists ms, k_values em order c = (ms, Some ValueError)) /\ remove_values em order c = (c, Err ValueError).
Proof. intros C T em order Ho matches max d xs. exact (values_raise em order Ho matches max d xs). Qed.
Print Assumptions C103_a_file_with_a_reserved_name_blocks_values.

Definition mail_of (s : string) : msg codes Z := Msg (Some (str s)) (str s) false None.

Example C103_case : let em := EmailPkg codes id id in
  let c := run_kops em [KPut (Some (str "b")) (mail_of "b")] (file_new (fun _ => true) (Some 5%Z) {[str "a" := str "x"]}) in
  order_ok elements /\ email_ok em /\ reached em [KPut (Some (str "b")) (mail_of "b")] c /\
  message_files (fun _ => true) (k_dir c) = {[str "a"; str "b"]} /\
  length (k_values em elements c).1 = 2 /\ contains elements c (Some (str "a")) = true /\ contains elements c None = false.
Proof.
  split_and!; [exact elements_ok|done|right; by exists (fun _ => true), (Some 5%Z), {[str "a" := str "x"]}|..];
    apply (bool_decide_unpack _); by vm_compute.
Qed.

(** ** C104 *)
Theorem C104_values_empty_a_directory :
  forall (C T : Type) (em : emailpkg C) (order : gset key -> list key), order_ok order ->
  forall matches max d (xs : list (@kop C T)), let c := run_kops em xs (file_new matches max d) in
  (forall f, f ∈ message_files matches (k_dir c) -> f ∉ [str "Statistics start date"; str "Persistent statistics"]) ->
  exists c', remove_values em order c = (c', Ok tt) /\
    message_files matches (k_dir c') = ∅ /\ (forall f, matches f = false -> k_dir c' !! f = k_dir c !! f) /\
    keys_list order c' = [].
Proof. intros C T em order Ho matches max d xs. exact (empty_files em order Ho matches max d xs). Qed.
Print Assumptions C104_values_empty_a_directory.

Theorem C104_lookups_do_not_empty_a_reopened_directory :
  forall (C T : Type) (em : emailpkg C) (order : gset key -> list key), order_ok order ->
  forall (matches : codes -> bool) max d, message_files matches d <> ∅ ->
  let c := file_new matches max d : cache (msg C T) in
  exists c', remove_by_key em order c = (c', Err TypeError) /\ k_dir c' = d.
Proof. intros C T em order Ho matches max d. exact (by_key_fails em order Ho matches max d). Qed.
Print Assumptions C104_lookups_do_not_empty_a_reopened_directory.

Theorem C104_default_corpus :
  forall (C T : Type) (em : emailpkg C) (order : gset key -> list key), order_ok order ->
  forall max d (xs : list (@kop C T)), own_ids xs -> let c := run_kops em xs (naive_new max d) in
  (exists c', remove_values em order c = (c', Ok tt) /\ k_len c' = 0 /\ keys_list order c' = []) /\
  exists c', remove_by_key em order c = (c', Ok tt) /\ k_len c' = 0 /\ keys_list order c' = [].
Proof. intros C T em order Ho max d xs. exact (empty_default em order Ho max d xs). Qed.
Print Assumptions C104_default_corpus.

(** A message added under another key than its id stays. *)
Theorem C104_message_under_another_key_stays :
  forall (C T : Type) (em : emailpkg C) (order : gset key -> list key) (m : msg C T) s d, order_ok order -> m_id m <> Some s ->
  let c := run_kops em [KPut (Some s) m] (naive_new None d) in
  exists c', remove_values em order c = (c', Ok tt) /\ k_getitem em c' (Some s) = Ok m.
Proof. exact @foreign_key_stays. Qed.
Print Assumptions C104_message_under_another_key_stays.

Example C104_case : own_ids [KPut (Some (str "a")) (mail_of "a"); KPop (Some (str "b"))] /\
  m_id (mail_of "a") <> Some (str "b") /\
  message_files (fun _ => true) {[str "a" := str "x"]} <> ∅ /\
  (forall f, f ∈ message_files (fun _ => true) {[str "a" := str "x"]} -> f ∉ [str "Statistics start date"; str "Persistent statistics"]) /\
  str "Persistent statistics" ∈ message_files (fun _ => true) {[str "Persistent statistics" := str "x"]}.
Proof.
  split_and!; [by repeat constructor|by apply (bool_decide_unpack _); vm_compute|by apply (bool_decide_unpack _); vm_compute| |
    by apply (bool_decide_unpack _); vm_compute].
  intros f Hf. assert (message_files (fun _ => true) {[str "a" := str "x"]} = {[str "a"]}) as E by (apply (bool_decide_unpack _); by vm_compute).
  rewrite E in Hf. apply elem_of_singleton in Hf as ->. apply (bool_decide_unpack _). by vm_compute.
Qed.
