(** * Properties C64 and C69: the URL-slurping classifier *)
From Coq Require Import String.
From Verif Require Import Py NumModel RealModel ClassifierModel TrainSpec ScoreSpec ApiProofs
  NetModel NetSpec SlurpModel SlurpSpec SlurpProofs.

(** ** C64 *)
Theorem C64_every_call_raises_and_only_scoring_touches_the_object :
  forall (A : num) (St : Type) (bk : backend St) (it : set_order) cs (o : slurper A St),
  s_setup o = false ->
  let '(o', rs) := slurp_run bk it cs o in
  s_setup o' = false /\
  s_obj o' = fst (run bk it (filter is_score (snd <$> cs)) (s_obj o)) /\
  length rs = length cs /\ Forall (fun r => exists e, r = Err e) rs.
Proof. exact @slurp_run_spec. Qed.
Print Assumptions C64_every_call_raises_and_only_scoring_touches_the_object.

Theorem C64_records_and_totals_unchanged :
  forall (A : num) (it : set_order) cs (o : slurper A (gmap pyword winfo)),
  s_setup o = false ->
  same_training (s_obj (fst (slurp_run mem_backend it cs o))) (s_obj o).
Proof. exact @slurp_run_untouched. Qed.
Print Assumptions C64_records_and_totals_unchanged.

Theorem C64_training_exception_and_directory :
  forall (A : num) (St : Type) (bk : backend St) (it : set_order) (makedirs : res unit)
    (learning : bool) s b (o : slurper A St),
  s_setup o = false ->
  let '(o', r) := slurp_call bk it makedirs (if learning then CLearn s b else CUnlearn s b) o in
  s_obj o' = s_obj o /\
  (r = Err TypeError \/ (s_dir o = false /\ exists e, makedirs = Err e /\ r = Err e) \/
   (o_bigrams (s_obj o) = None /\ r = Err AttributeError)) /\
  (s_dir o' = true <-> s_dir o = true \/ (o_bigrams (s_obj o) <> None /\ makedirs = Ok tt)).
Proof. exact @slurp_train_outcome. Qed.
Print Assumptions C64_training_exception_and_directory.

Theorem C64_scoring_exception :
  forall (A : num) (St : Type) (bk : backend St) (it : set_order) (makedirs : res unit) s (o : slurper A St),
  let '(o', r) := slurp_call bk it makedirs (CScore s) o in
  s_dir o' = s_dir o /\
  match snd (spamprob_evidence bk it s (s_obj o)) with
  | Ok _ => r = Err TypeError
  | Err e => r = Err e
  end.
Proof. exact @slurp_score_outcome. Qed.
Print Assumptions C64_scoring_exception.

Theorem C64_a_new_classifier_raises_TypeError_for_ever :
  forall (A : num) (it : set_order) (bigrams : bool) cs,
  total_num A -> set_order_ok it -> sane A -> Forall (fun x => fst x = Ok tt) cs ->
  forall d, snd (slurp_run mem_backend it cs (Slurper (c_new bigrams ∅ : obj A _) false d))
  = replicate (length cs) (Err TypeError).
Proof. exact @slurp_new. Qed.
Print Assumptions C64_a_new_classifier_raises_TypeError_for_ever.

Example C64_case :
  s_setup (Slurper (c_new true ∅ : obj exact (gmap pyword winfo)) false false) = false /\
  sane exact /\ set_order_ok remove_dups /\
  snd (slurp_run mem_backend remove_dups [(Err (OtherError 9), CLearn (SList [WStr (str "a")]) true)]
        (Slurper (c_new true ∅ : obj exact (gmap pyword winfo)) false false)) = [Err (OtherError 9)].
Proof. split_and!; [done|exact exact_sane|exact remove_dups_ok|done]. Qed.

(** ** C69 *)
Theorem C69_base_of_a_url :
  forall url host, host_of url host ->
  dot_suffix (base_url url) host /\
  (dots host <= 1 -> base_url url = host) /\
  (1 < dots host -> forall rest top, host = rest ++ 46%N :: top -> 46%N ∉ top ->
     dots (base_url url) = if decide (length top < 3) then 2 else 1).
Proof. exact base_url_spec. Qed.
Print Assumptions C69_base_of_a_url.

Theorem C69_only_the_host_matters :
  forall url url' host, host_of url host -> host_of url' host -> base_url url = base_url url'.
Proof. exact base_url_same_host. Qed.
Print Assumptions C69_only_the_host_matters.

Theorem C69_taking_the_base_twice :
  forall url, base_url (base_url url) = base_url url.
Proof. exact base_url_idem. Qed.
Print Assumptions C69_taking_the_base_twice.

Example C69_case :
  base_url (str "www.massey.ac.nz/~tameyer/index.html?you=me") = str "massey.ac.nz" /\
  base_url (str "id.example.com") = str "example.com" /\
  base_url (str "localhost/a/b.c.d") = str "localhost" /\
  host_of (str "id.example.com/x") (str "id.example.com").
Proof.
  split_and!; [by vm_compute..|]. split; [apply (bool_decide_unpack _); by vm_compute|].
  right. by exists (str "x").
Qed.
