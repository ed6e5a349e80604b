(** * C144: messages some of whose words the database cannot hold *)
From Coq Require Import String.
From Verif Require Import Py NumModel ClassifierModel TrainSpec RealModel ShelveModel ShelveSpec HalfSpec HalfProofs.

Theorem C144_learned_in_part_and_taken_back :
  forall (A : num) (it : set_order) (d : database) (xs : list sop) (s : stream) (b : bool),
  set_order_ok it -> left_behind A plain_op d -> Forall plain_op xs ->
  (forall w, w ∈ elems s -> w <> WStr (str "saved state")) -> (exists w, w ∈ elems s /\ misfit w) ->
  let o := fst (run_sops it xs (fst (shelve_open (A:=A) d))) in
  exists (o1 o2 : obj A sstore) (pre post : list pyword) (x : pyword),
    it (elems s) = pre ++ x :: post /\ Forall fits pre /\ misfit x /\
    learn shelve_backend it s b o = (o1, Err (misfit_error x)) /\
    total_of b o1 = (total_of b o + 1)%Z /\ total_of (negb b) o1 = total_of (negb b) o /\
    (forall w, w ∈ pre -> exists r, recorded o w = Ok r /\ recorded o1 w = Ok (Some (one_more b r))) /\
    (forall w, w ∉ pre -> fits w -> recorded o1 w = recorded o w) /\
    unlearn shelve_backend it s b o1 = (o2, Err (misfit_error x)) /\
    total_of b o2 = total_of b o /\ total_of (negb b) o2 = total_of (negb b) o /\
    (forall w, fits w -> recorded o2 w = recorded o w) /\
    (forall ys, Forall plain_op ys -> tidy true ys -> snd (run_sops it ys o2) = snd (run_sops it ys o)).
Proof. intros A it d xs s b Hit. exact (half_learned it Hit d xs s b). Qed.
Print Assumptions C144_learned_in_part_and_taken_back.

Theorem C144_scoring_raises :
  forall (A : num) (it : set_order) (d : database) (xs : list sop) (s : stream),
  set_order_ok it -> left_behind A plain_op d -> Forall plain_op xs ->
  (forall w, w ∈ elems s -> w <> WStr (str "saved state")) -> (exists w, w ∈ elems s /\ misfit w) ->
  let o := fst (run_sops it xs (fst (shelve_open (A:=A) d))) in
  exists o' e, spamprob_evidence shelve_backend it s o = (o', Err e).
Proof. intros A it d xs s Hit. exact (half_score it Hit d xs s). Qed.
Print Assumptions C144_scoring_raises.

Example C144_case :
  let s := SList [WStr (str "a"); WBytes (str "b"); WStr (str "c")] in
  left_behind exact plain_op ∅ /\ Forall plain_op [] /\
  (forall w, w ∈ elems s -> w <> WStr (str "saved state")) /\ (exists w, w ∈ elems s /\ misfit w).
Proof. exact half_case. Qed.

(** Which words were learned depends on the order in which the set is visited. *)
Theorem C144_the_part_depends_on_the_order_of_the_set :
  let s := SList [WStr (str "a"); WBytes (str "b"); WStr (str "c")] in
  exists it it', set_order_ok it /\ set_order_ok it' /\
    let o := fst (learn shelve_backend it s true (fst (shelve_open (A:=exact) ∅))) in
    let o' := fst (learn shelve_backend it' s true (fst (shelve_open (A:=exact) ∅))) in
    recorded o (WStr (str "a")) = Ok (Some (WI 1 0)) /\ recorded o (WStr (str "c")) = Ok None /\
    recorded o' (WStr (str "a")) = Ok None /\ recorded o' (WStr (str "c")) = Ok (Some (WI 1 0)).
Proof. exact half_order. Qed.
Print Assumptions C144_the_part_depends_on_the_order_of_the_set.
