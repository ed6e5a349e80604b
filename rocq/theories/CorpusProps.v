(** * Property theorems C37 - C45 and C65 (caches, corpora, trainers, expiry) *)
From Coq Require Import String.
From Verif Require Import Py NumModel ClassifierModel TrainSpec CacheModel CacheSpec CacheProofs
  CorpusModel CorpusSpec CorpusProofs.

(** Messages whose contents are their bytes. *)
Definition bytes_email : emailpkg codes := EmailPkg codes id id.
Definition letter (s : string) : msg codes Z := Msg (Some (str s)) (str s) true (Some 5%Z).

(** ** C37 *)
Theorem C37_in_memory_cache_is_bounded :
  forall (C T : Type) (em : emailpkg C) (max : option Z) d (xs : list (@kop C T)),
  let c := run_kops em xs (naive_new max d) in
  match max with Some z => (Z.of_nat (k_len c) <= Z.max 0 z)%Z | None => True end /\
  forall k m, k_getitem em c k = Ok m -> last_put xs k = Some m.
Proof. intros C T em max d xs. exact (naive_bounded em max d xs). Qed.
Print Assumptions C37_in_memory_cache_is_bounded.

Example C37_case : let xs := [KPut (Some (str "a")) (letter "a"); KPut (Some (str "b")) (letter "b")] in
  k_len (run_kops bytes_email xs (naive_new (Some 1%Z) ∅)) = 1.
Proof. vm_compute. reflexivity. Qed.

(** ** C38 *)
Theorem C38_first_in_first_out :
  forall (C T : Type) (em : emailpkg C) (max : option Z) d (xs : list (@kop C T)),
  fresh_puts max [] xs -> let c := run_kops em xs (naive_new max d) in
  k_len c = length (queue max xs) /\
  (forall k, k ∈ k_keyset c <-> k ∈ (queue max xs).*1) /\
  forall k m, k_getitem em c k = Ok m <-> (k, m) ∈ queue max xs.
Proof. intros C T em max d xs. exact (naive_fifo em max d xs). Qed.
Print Assumptions C38_first_in_first_out.

Theorem C38_distinct_keys_keep_the_last :
  forall (C T : Type) (em : emailpkg C) (n : nat) d (es : list (key * msg C T)),
  NoDup es.*1 -> let c := run_kops em (puts_of es) (naive_new (Some (Z.of_nat n)) d) in
  forall k m, k_getitem em c k = Ok m <-> (k, m) ∈ last_n n es.
Proof. intros C T em n d es. exact (naive_last_n em n d es). Qed.
Print Assumptions C38_distinct_keys_keep_the_last.

Theorem C38_putting_a_cached_key_again :
  forall (C T : Type) (em : emailpkg C) (n : nat) d (es : list (key * msg C T)) k m m',
  length es = n -> NoDup ((k, m) :: es).*1 ->
  let c := run_kops em (puts_of ((k, m) :: es) ++ [KPut k m']) (naive_new (Some (Z.of_nat (S n))) d) in
  k_getitem em c k = Err KeyError /\ k_len c = n /\
  k_len (run_kops em (puts_of ((k, m) :: es)) (naive_new (Some (Z.of_nat (S n))) d)) = S n.
Proof. intros C T em n d es k m m'. exact (reput_disappears em n d es k m m'). Qed.
Print Assumptions C38_putting_a_cached_key_again.

Example C38_case : fresh_puts (Some 1%Z) []
    [KPut (Some (str "a")) (letter "a"); KPut (Some (str "b")) (letter "b"); KPut (Some (str "a")) (letter "a")] /\
  NoDup ([(Some (str "a"), letter "a"); (Some (str "b"), letter "b")] : list (key * msg codes Z)).*1.
Proof.
  split; [|apply (bool_decide_unpack _); by vm_compute].
  repeat (split; [apply (bool_decide_unpack _); by vm_compute|]). done.
Qed.

(** ** C39 *)
Theorem C39_empty_cache_is_ignored :
  forall (C T : Type) (em : emailpkg C) (A : num) (St : Type) (bk : backend St) it (tok : msg C T -> list pyword)
    ts xs (c : cache (msg C T)) (o : obj A St),
  k_len c = 0 -> Forall (in_range 1) xs ->
  let w := run_cops em bk it tok ts xs (World [corpus_new (Some c) (k_dir c)] o []) in
  exists c', w_corpora w !! 0 = Some c' /\ holds em c' (contents 0 xs) /\ k_dir c' = k_dir c.
Proof. intros C T em A St bk it tok ts xs c o. exact (ignored_history em bk it tok ts xs c o). Qed.
Print Assumptions C39_empty_cache_is_ignored.

Theorem C39_file_corpus_on_an_empty_directory_writes_nothing :
  forall (C T : Type) (em : emailpkg C) (A : num) (St : Type) (bk : backend St) it (tok : msg C T -> list pyword)
    ts xs matches size d (o : obj A St),
  message_files matches d = ∅ -> Forall (in_range 1) xs ->
  let w := run_cops em bk it tok ts xs (World [file_corpus_new matches size d] o []) in
  exists c', w_corpora w !! 0 = Some c' /\ holds em c' (contents 0 xs) /\ k_dir c' = d.
Proof. intros C T em A St bk it tok ts xs matches size d o. exact (file_corpus_ignored em bk it tok ts xs matches size d o). Qed.
Print Assumptions C39_file_corpus_on_an_empty_directory_writes_nothing.

Example C39_case : message_files (fun f => bool_decide (f <> str "x")) {[str "x" := str "y"]} = ∅ /\
  k_len (naive_new (Some 3%Z) ∅ : cache (msg codes Z)) = 0 /\
  contents 0 [CAdd 0 (letter "a") None true] = {[Some (str "a") := letter "a"]}.
Proof. split_and!; by vm_compute. Qed.

(** ** C40 *)
Theorem C40_at_most_the_limit_of_put_files_survive :
  forall (C T : Type) (em : emailpkg C) matches d z (xs : list (@kop C T)), (1 <= z)%Z ->
  (Z.of_nat (size (message_files matches (k_dir (run_kops em xs (file_new matches (Some z) d))) ∩ put_names xs)) <= z)%Z.
Proof. intros C T em matches d z xs. exact (file_bounded em matches d z xs). Qed.
Print Assumptions C40_at_most_the_limit_of_put_files_survive.

Theorem C40_eviction_deletes_the_oldest_files :
  forall (C T : Type) (em : emailpkg C) (matches : codes -> bool) d n (es : list (codes * msg C T)),
  1 <= n -> NoDup es.*1 -> (forall e, e ∈ es -> matches e.1 = true) ->
  let c := run_kops em (puts_of (prod_map Some id <$> es)) (file_new matches (Some (Z.of_nat n)) d) in
  forall f, k_dir c !! f =
    match (list_to_map (last_n n es) : gmap codes (msg C T)) !! f with
    | Some m => Some (as_bytes em (m_content m))
    | None => if decide (f ∈ es.*1) then None else d !! f
    end.
Proof. intros C T em matches d n es Hn Hnd Hm. exact (proj2 (file_evicts em matches d n es Hn Hnd Hm)). Qed.
Print Assumptions C40_eviction_deletes_the_oldest_files.

Theorem C40_put_stores_the_file :
  forall (C T : Type) (em : emailpkg C) (matches : codes -> bool) d max (xs : list (@kop C T)) f m, matches f = true ->
  let c := run_kops em xs (file_new matches max d) in
  exists c', k_put em (Some f) m c = (c', Ok tt) /\ k_dir c' !! f = Some (as_bytes em (m_content m)).
Proof. intros C T em matches d max xs f m. exact (file_put_stores em matches d max xs f m). Qed.
Print Assumptions C40_put_stores_the_file.

Theorem C40_pop_removes_the_file :
  forall (C T : Type) (em : emailpkg C) matches d max (xs : list (@kop C T)) f,
  let c := run_kops em xs (file_new matches max d) in
  exists c' r, k_pop (Some f) c = (c', Ok r) /\ k_dir c' = delete f (k_dir c) /\ k_getitem em c' (Some f) = Err KeyError.
Proof. intros C T em matches d max xs f. exact (file_pop_removes em matches d max xs f). Qed.
Print Assumptions C40_pop_removes_the_file.

Theorem C40_other_files_are_kept :
  forall (C T : Type) (em : emailpkg C) matches d max (xs : list (@kop C T)) f,
  f ∉ put_names xs \/ matches f = false -> f ∉ pop_names xs ->
  k_dir (run_kops em xs (file_new matches max d)) !! f = d !! f.
Proof. intros C T em matches d max xs f. exact (file_others em matches d max xs f). Qed.
Print Assumptions C40_other_files_are_kept.

Example C40_case : let xs := puts_of [(Some (str "a"), letter "a"); (Some (str "b"), letter "b")] in
  k_dir (run_kops bytes_email xs (file_new (fun _ => true) (Some 1%Z) {[str "z" := []]})) = {[str "z" := []; str "b" := str "b"]} /\
  size (message_files (fun _ => true) (k_dir (run_kops bytes_email xs (file_new (fun _ => true) (Some 1%Z) ∅))) ∩ put_names xs) = 1.
Proof. split; [apply (bool_decide_unpack _)|]; by vm_compute. Qed.

(** ** C41 *)
Theorem C41_lookup_succeeds_for_the_files_of_the_directory :
  forall (C T : Type) (em : emailpkg C) matches d max (xs : list (@kop C T)) f,
  let c := run_kops em xs (file_new matches max d) in
  (exists m, k_getitem em c (Some f) = Ok m) <-> f ∈ message_files matches (k_dir c).
Proof. intros C T em matches d max xs f. exact (file_getitem em matches d max xs f). Qed.
Print Assumptions C41_lookup_succeeds_for_the_files_of_the_directory.

Theorem C41_lookup_returns_the_last_contents :
  forall (C T : Type) (em : emailpkg C) matches d max (xs : list (@kop C T)) f m, email_ok em ->
  let c := run_kops em xs (file_new matches max d) in
  k_getitem em c (Some f) = Ok m ->
  (f ∈ put_names xs -> exists m0, last_put xs (Some f) = Some m0 /\
     as_bytes em (m_content m) = as_bytes em (m_content m0) /\
     k_dir c !! f = Some (as_bytes em (m_content m0))) /\
  (f ∉ put_names xs -> exists b, d !! f = Some b /\ k_dir c !! f = Some b /\ m_content m = parse em b).
Proof. intros C T em matches d max xs f m. exact (file_lookup em matches d max xs f m). Qed.
Print Assumptions C41_lookup_returns_the_last_contents.

Theorem C41_rejected_put_changes_nothing :
  forall (C T : Type) (em : emailpkg C) matches d max (xs : list (@kop C T)) f m, matches f = false ->
  let c := run_kops em xs (file_new matches max d) in k_put em (Some f) m c = (c, Err ValueError).
Proof. intros C T em matches d max xs f m. exact (file_put_rejected em matches d max xs f m). Qed.
Print Assumptions C41_rejected_put_changes_nothing.

Example C41_case : email_ok bytes_email /\
  let xs := puts_of [(Some (str "a"), letter "a")] in
  k_getitem bytes_email (run_kops bytes_email xs (file_new (fun _ => true) (Some 1%Z) ∅)) (Some (str "a")) = Ok (letter "a").
Proof. split; [by intros c|by vm_compute]. Qed.

(** ** C42 *)
Theorem C42_length_is_frozen :
  forall (C T : Type) (em : emailpkg C) matches d max (xs : list (@kop C T)),
  let c := run_kops em xs (file_new matches max d) in
  k_len c = size (message_files matches d) /\
  k_keyset c = set_map Some (message_files matches (k_dir c)).
Proof. intros C T em matches d max xs. exact (file_len em matches d max xs). Qed.
Print Assumptions C42_length_is_frozen.

Theorem C42_length_and_iteration_disagree :
  forall (C T : Type) (em : emailpkg C) (matches : codes -> bool) d max f (m : msg C T),
  matches f = true -> d !! f = None ->
  let c := run_kops em [KPut (Some f) m] (file_new matches max d) in
  size (message_files matches (k_dir c)) = S (k_len c).
Proof. intros C T em matches d max f m. exact (file_len_disagrees em matches d max f m). Qed.
Print Assumptions C42_length_and_iteration_disagree.

Example C42_case : (fun _ : codes => true) (str "a") = true /\ (∅ : gmap codes codes) !! str "a" = None.
Proof. done. Qed.

(** ** C43 *)
Theorem C43_corpus_is_a_dictionary_and_sends_each_signal_once :
  forall (C T : Type) (em : emailpkg C) (A : num) (St : Type) (bk : backend St) it (tok : msg C T -> list pyword)
    ts xs (w : world C T A St) i c,
  fresh_world w -> Forall (in_range (length (w_corpora w))) xs -> w_corpora w !! i = Some c ->
  let w' := run_cops em bk it tok ts xs w in
  (exists c', w_corpora w' !! i = Some c' /\ holds em c' (contents i xs)) /\
  w_sent w' = w_sent w ++ signals xs.
Proof. intros C T em A St bk it tok ts xs w i c. exact (corpus_history em bk it tok ts xs w i c). Qed.
Print Assumptions C43_corpus_is_a_dictionary_and_sends_each_signal_once.

Theorem C43_message_added_under_another_id_is_not_removed :
  forall (C T : Type) (em : emailpkg C) (A : num) (St : Type) (bk : backend St) it (tok : msg C T -> list pyword)
    ts (w : world C T A St) i c m s,
  fresh_world w -> w_corpora w !! i = Some c -> m_id m <> Some s ->
  let w' := run_cops em bk it tok ts [CAdd i m (Some s) true; CRemove i m true] w in
  (exists c', w_corpora w' !! i = Some c' /\ k_getitem em c' (Some s) = Ok m) /\
  w_sent w' = w_sent w ++ [(Added, i, m); (Removed, i, m)].
Proof. intros C T em A St bk it tok ts w i c m s. exact (explicit_id_stays em bk it tok ts w i c m s). Qed.
Print Assumptions C43_message_added_under_another_id_is_not_removed.

Example C43_case : let w : world codes Z int_num (gmap pyword winfo) := World [naive_new None ∅; naive_new None ∅] (c_new false ∅) [] in
  fresh_world w /\ Forall (in_range (length (w_corpora w))) [CAdd 1 (letter "a") None true; CRemove 0 (letter "b") false].
Proof.
  cbv zeta. split; [|repeat constructor]. intros [|[|i]] c Hc; [| |done]; cbn in Hc; injection Hc as <-; by exists ∅.
Qed.

(** ** C44 *)
Theorem C44_every_add_and_every_remove_trains :
  forall (C T : Type) (em : emailpkg C) (A : num) it (tok : msg C T -> list pyword) ts xs
    (w : world C T A (gmap pyword winfo)),
  set_order_ok it -> fresh_world w -> Forall (in_range (length (w_corpora w))) xs ->
  Forall (fun x => m_has_key (cop_msg x) = true) xs -> is_Some (o_bigrams (w_class w)) ->
  let o' := w_class (run_cops em mem_backend it tok ts xs w) in
  o' = fst (run mem_backend it (trainings tok ts xs) (w_class w)) /\
  (forall b, total_of b o' = (total_of b (w_class w) + learns b (trainings tok ts xs))%Z) /\
  o_bigrams o' = o_bigrams (w_class w).
Proof. intros C T em A it tok ts xs w Hit. exact (every_signal_trains em it Hit tok ts xs w). Qed.
Print Assumptions C44_every_add_and_every_remove_trains.

Theorem C44_removing_trains_a_second_time :
  forall (C T : Type) (em : emailpkg C) (A : num) it (tok : msg C T -> list pyword) m id b
    (w : world C T A (gmap pyword winfo)) c,
  set_order_ok it -> fresh_world w -> w_corpora w !! 0 = Some c ->
  m_has_key m = true -> is_Some (o_bigrams (w_class w)) ->
  total_of b (w_class (run_cops em mem_backend it tok [Trainer b [0]] [CAdd 0 m id true; CRemove 0 m true] w)) =
  (total_of b (w_class w) + 2)%Z.
Proof. intros C T em A it tok m id b w c Hit. exact (add_remove_trains_twice em it Hit tok m id b w c). Qed.
Print Assumptions C44_removing_trains_a_second_time.

Theorem C44_remove_untrains_refuted :
  ~ forall (C T : Type) (em : emailpkg C) (A : num) it (tok : msg C T -> list pyword) ts m i
      (w : world C T A (gmap pyword winfo)),
    set_order_ok it -> fresh_world w -> m_has_key m = true -> is_Some (o_bigrams (w_class w)) ->
    same_training (w_class (run_cops em mem_backend it tok ts [CAdd i m None true; CRemove i m true] w)) (w_class w).
Proof. exact untrain_refuted. Qed.
Print Assumptions C44_remove_untrains_refuted.

Theorem C44_messages_of_the_package_are_never_trained :
  forall (C T : Type) (em : emailpkg C) (A : num) (St : Type) (bk : backend St) it (tok : msg C T -> list pyword)
    ts i m id (w : world C T A St) c,
  fresh_world w -> w_corpora w !! i = Some c -> m_has_key m = false -> (exists t, t ∈ ts /\ i ∈ t_corpora t) ->
  (let '(w', r) := add_message em bk it tok ts i m id true w in
     r = Err AttributeError /\ w_class w' = w_class w /\
     exists c', w_corpora w' !! i = Some c' /\ k_getitem em c' (key_of m id) = Ok m) /\
  (let '(w', r) := remove_message bk it tok ts i m true w in
     r = Err AttributeError /\ w_class w' = w_class w).
Proof. intros C T em A St bk it tok ts i m id w c. exact (package_message em bk it tok ts i m id w c). Qed.
Print Assumptions C44_messages_of_the_package_are_never_trained.

Example C44_case : m_has_key (letter "a") = true /\
  m_has_key (Msg (Some (str "a")) [] false None : msg codes Z) = false /\
  trainings (fun _ => []) [Trainer true [0]; Trainer false [1]] [CAdd 0 (letter "a") None true; CRemove 0 (letter "a") true] =
    [CLearn (SIter []) true; CLearn (SIter []) true].
Proof. split_and!; by vm_compute. Qed.

(** ** C45 *)
Theorem C45_expiry_never_removes :
  forall (C T : Type) (em : emailpkg C) (A : num) (stamp : T -> F A) (clock : nat -> F A) ks (e : expiry C T A),
  total_num A -> (forall k, k ∈ ks <-> k ∈ k_keyset (e_cache e)) ->
  let '(e', r) := remove_expired em stamp clock ks e in
  e_cache e' = e_cache e /\
  ((nlt A (clock 0) (e_due e) = true /\ e' = e /\ r = Ok tt) \/
   (nlt A (clock 0) (e_due e) = false /\
    match r with
    | Ok _ =>
        (forall j k, ks !! j = Some k -> alive em stamp clock e 2 j k) /\
        (forall k m t, k ∈ k_keyset (e_cache e) -> k_getitem em (e_cache e) k = Ok m -> m_stamp m = Some t ->
           le A (e_due e') (nadd A (stamp t) (e_before e))) /\
        le A (e_due e') (nadd A (clock 1) (e_before e))
    | Err x => exists j k m, ks !! j = Some k /\ (forall i k', i < j -> ks !! i = Some k' -> alive em stamp clock e 2 i k') /\
        k_getitem em (e_cache e) k = Ok m /\
        ((x = AttributeError /\ m_stamp m = None) \/
         (x = TypeError /\ exists t, m_stamp m = Some t /\
            nlt A (nadd A (stamp t) (e_before e)) (clock (2 + j)) = true))
    end)).
Proof. intros C T em A stamp clock ks e. exact (expire_outcome em A stamp clock ks e). Qed.
Print Assumptions C45_expiry_never_removes.

Theorem C45_reopened_directory_always_raises :
  forall (C T : Type) (em : emailpkg C) (A : num) (stamp : T -> F A) (clock : nat -> F A)
    (matches : codes -> bool) max d before due ks,
  message_files matches d <> ∅ -> (forall k, k ∈ ks <-> exists f, k = Some f /\ f ∈ message_files matches d) ->
  nlt A (clock 0) due = false ->
  let e := Expiry (file_corpus_new matches max d) before due : expiry C T A in
  let '(e', r) := remove_expired em stamp clock ks e in
  r = Err AttributeError /\ e_cache e' = e_cache e.
Proof.
  intros C T em A stamp clock matches max d before due ks.
  exact (expire_reopened em A stamp clock matches max d before due ks).
Qed.
Print Assumptions C45_reopened_directory_always_raises.

Example C45_case : message_files (fun _ => true) {[str "a" := []]} <> (∅ : gset codes) /\
  forall k, k ∈ [Some (str "a")] <-> exists f, k = Some f /\ f ∈ message_files (fun _ => true) {[str "a" := []]}.
Proof.
  assert (message_files (fun _ => true) {[str "a" := []]} = ({[str "a"]} : gset codes)) as ->
    by (apply (bool_decide_unpack _); by vm_compute).
  split; [set_solver|]. intros k. rewrite elem_of_list_singleton. set_solver.
Qed.

(** ** C65 *)
Theorem C65_message_read_from_disk_cannot_be_removed :
  forall (C T : Type) (em : emailpkg C) (A : num) (St : Type) (bk : backend St) it (tok : msg C T -> list pyword)
    ts i (w : world C T A St) c matches n f m,
  w_corpora w !! i = Some c -> k_class c = File matches n -> k_data c !! Some f = None ->
  k_getitem em c (Some f) = Ok m ->
  m_id m = None /\
  forall emit, let '(w', r) := remove_message bk it tok ts i m emit w in
    r = Err TypeError /\ w_class w' = w_class w /\ w_sent w' = w_sent w /\
    exists c', w_corpora w' !! i = Some c' /\ k_dir c' = k_dir c /\ k_keyset c' = k_keyset c.
Proof. intros C T em A St bk it tok ts i w c matches n f m. exact (from_disk_not_removable em bk it tok ts i w c matches n f m). Qed.
Print Assumptions C65_message_read_from_disk_cannot_be_removed.

Example C65_case : let c := file_corpus_new (fun _ => true) (Some 256%Z) {[str "a" := str "b"]} : cache (msg codes Z) in
  k_class c = File (fun _ => true) 1 /\ k_data c !! Some (str "a") = None /\
  k_getitem bytes_email c (Some (str "a")) = Ok (Msg None (str "b") false None).
Proof. split_and!; by vm_compute. Qed.
