(** * Property theorems C101, C102 (copies of messages, messages that cannot be written) *)
From Coq Require Import String.
From Verif Require Import Py NumModel ClassifierModel StripModel RaiseModel CacheModel CacheSpec MessageModel CopyModel CopyProofs.

(** ** C101 *)
Theorem C101_a_copy_has_no_contents : forall (C : Type) (m : mobj C),
  (b_id (copy m) = b_id m /\ b_c (copy m) = b_c m /\ b_t (copy m) = b_t m) /\
  (forall B (f : C -> res B), b_read f (copy m) = Err AttributeError) /\
  forall m' : mobj C, b_id m' = b_id m -> b_c m' = b_c m -> b_t m' = b_t m -> copy m' = copy m.
Proof. exact @copy_keeps. Qed.
Print Assumptions C101_a_copy_has_no_contents.

Theorem C101_training_on_a_copy_only_counts :
  forall (A : num) (St C : Type) (bk : backend St) it (tok : C -> gen) (m : mobj C) is_spam (o : obj A St),
  o_bigrams o <> None ->
  exists o', learn_gen bk it (b_tokens tok (copy m)) is_spam o = (o', Err AttributeError) /\
    o_nspam o' = (o_nspam o + if is_spam then 1 else 0)%Z /\ o_nham o' = (o_nham o + if is_spam then 0 else 1)%Z /\
    o_store o' = o_store o.
Proof. exact @copy_learn. Qed.
Print Assumptions C101_training_on_a_copy_only_counts.

(** Two different messages with the same id, and reading them *)
Example C101_case : let m1 := MObj (Some (str "1")) (Some spam) (Some true) (Some (str "buy")) in
  let m2 := MObj (Some (str "1")) (Some spam) (Some true) (Some (str "hello")) in
  b_read Ok m1 = Ok (str "buy") /\ b_read Ok m2 = Ok (str "hello") /\ copy m1 = copy m2 /\
  b_read Ok (copy m1) = Err AttributeError.
Proof. done. Qed.

(** ** C102 *)
Theorem C102_failed_add_leaves_an_empty_file :
  forall (C T : Type) (em : emailpkg C) (out : msg C T -> res codes) (matches : codes -> bool) max d (xs : list (@kop C T))
    id (m : msg C T) f e emit sent,
  matches f = true -> out m = Err e -> (id = Some f \/ id = None /\ m_id m = Some f) ->
  let c := run_kops_e out xs (file_new matches max d) in
  exists c', add_e out id m emit (c, sent) = ((c', sent), Err e) /\
    k_dir c' !! f = Some [] /\
    k_getitem em (file_new matches max (k_dir c') : cache (msg C T)) (Some f) = Ok (Msg None (parse em []) false None) /\
    (max = None -> k_getitem em c' (Some f) = Ok m /\ forall g, g <> f -> k_dir c' !! g = k_dir c !! g).
Proof. intros C T em out matches max d xs id m f e emit sent. exact (failed_add em out matches max d xs id m f e emit sent). Qed.
Print Assumptions C102_failed_add_leaves_an_empty_file.

Theorem C102_observers_are_told_of_written_messages :
  forall (C T : Type) (out : msg C T -> res codes) (matches : codes -> bool) max d (xs : list (@kop C T))
    id (m : msg C T) emit sent c' sent' r,
  let c := run_kops_e out xs (file_new matches max d) in
  add_e out id m emit (c, sent) = ((c', sent'), r) ->
  sent' = sent ++ (match r with Ok _ => if emit : bool then [m] else [] | Err _ => [] end) /\
  (r = Ok tt -> exists f b, (id = Some f \/ id = None /\ m_id m = Some f) /\ matches f = true /\ out m = Ok b /\ k_dir c' !! f = Some b).
Proof. intros C T out matches max d xs id m emit sent c' sent' r. exact (add_tells out matches max d xs id m emit sent c' sent' r). Qed.
Print Assumptions C102_observers_are_told_of_written_messages.

Theorem C102_files_after_any_history :
  forall (C T : Type) (out : msg C T -> res codes) (matches : codes -> bool) max d (xs : list (@kop C T)) f b,
  f ∈ put_names xs -> matches f = true ->
  k_dir (run_kops_e out xs (file_new matches max d)) !! f = Some b ->
  exists m, last_put xs (Some f) = Some m /\ (out m = Ok b \/ (exists e, out m = Err e) /\ b = []).
Proof. intros C T out matches max d xs f b. exact (files_after out matches max d xs f b). Qed.
Print Assumptions C102_files_after_any_history.

(** C40 - C42 and C65 are about the same caches, for messages that can be written. *)
Theorem C102_same_caches : forall (C T : Type) (em : emailpkg C) (out : msg C T -> res codes) (xs : list (@kop C T)) c,
  (forall m, out m = Ok (as_bytes em (m_content m))) -> run_kops_e out xs c = run_kops em xs c.
Proof. intros C T em out xs c. exact (no_failures em out xs c). Qed.
Print Assumptions C102_same_caches.

(** What the failing write destroys *)
Theorem C102_failed_add_changes_no_file_refuted :
  ~ forall (matches : codes -> bool) max d xs (m : msg (option codes) Z) e sent c' sent',
  let c := run_kops_e write xs (file_new matches max d) in
  add_e write None m true (c, sent) = ((c', sent'), Err e) -> k_dir c' = k_dir c.
Proof. exact failed_add_destroys. Qed.
Print Assumptions C102_failed_add_changes_no_file_refuted.

Example C102_case : let m := Msg (Some (str "a")) (Some (str "text")) false None : msg (option codes) Z in
  let c := run_kops_e write [KPut (Some (str "a")) m] (file_new (fun _ => true) None ∅) in
  k_dir c !! str "a" = Some (str "text") /\ write (copy_of m) = Err AttributeError /\ m_id (copy_of m) = Some (str "a") /\
  k_dir (add_e write None (copy_of m) true (c, [])).1.1 !! str "a" = Some [].
Proof. vm_compute. repeat split. Qed.
