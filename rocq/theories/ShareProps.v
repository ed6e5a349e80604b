(** * Property theorems C125 - C127 (several processes, one database) *)
From Coq Require Import Reals String.
From Verif Require Import Py NumModel ClassifierModel RealModel ShelveModel ShelveSpec ShelveApiProofs ShareModel ShareSpec
  ShareSoloProofs ShareReadProofs ShareWorldProofs ShareLoadProofs ShareCases.
Local Open Scope nat_scope.

(** ** C125 *)
Theorem C125_processes_taking_turns_work_as_one_after_the_other :
  forall (A : num) (it : set_order) (d : database) (progs : list (list sop)) (ns : list nat),
  length ns = length progs ->
  let w := together (A:=A) it d progs (concat (imap (fun i n => replicate n i) ns)) in
  (forall i, i < length progs -> finished (A:=A) it w i = true) ->
  let left_by d xs := s_db (o_store (fst (run_sops it xs (fst (shelve_open (A:=A) d))))) in
  w_db w = foldl left_by d progs /\
  forall i xs, progs !! i = Some xs ->
    let d := foldl left_by d (take i progs) in
    outcomes (A:=A) it w i =
      ODone (snd (shelve_open (A:=A) d)) :: snd (run_sops it xs (fst (shelve_open (A:=A) d))).
Proof. exact @turns. Qed.
Print Assumptions C125_processes_taking_turns_work_as_one_after_the_other.

Theorem C125_processes_that_only_score_do_not_disturb_each_other :
  forall (A : num) (it : set_order) (d : database) (progs : list (list sop)) (schedule : list nat),
  Forall (Forall reads) progs ->
  let w := together (A:=A) it d progs schedule in
  w_db w = d /\ forall i xs, progs !! i = Some xs ->
    outcomes (A:=A) it w i `prefix_of`
      ODone (snd (shelve_open (A:=A) d)) :: snd (run_sops it xs (fst (shelve_open (A:=A) d))).
Proof. exact @readers. Qed.
Print Assumptions C125_processes_that_only_score_do_not_disturb_each_other.

Theorem C125_overlapping_processes_work_as_in_some_order_refuted :
  forall A : num,
  ~ forall it d progs schedule, set_order_ok it -> well_kept d -> Forall (Forall plain_op) progs ->
    let w := together (A:=A) it d progs schedule in
    (forall i, i < length progs -> finished (A:=A) it w i = true) ->
    exists order, order ≡ₚ progs /\ w_db w =
      foldl (fun d xs => s_db (o_store (fst (run_sops it xs (fst (shelve_open (A:=A) d)))))) d order.
Proof. exact some_order_refuted. Qed.
Print Assumptions C125_overlapping_processes_work_as_in_some_order_refuted.

Theorem C125_database_trained_by_overlapping_processes_can_be_used_refuted :
  forall A : num,
  ~ forall it progs schedule s, set_order_ok it -> Forall (Forall plain_op) progs ->
    (forall xs x, xs ∈ progs -> x ∈ xs -> ~ is_unlearn x) -> Forall plain (elems s) ->
    let w := together (A:=A) it ∅ progs schedule in
    (forall i, i < length progs -> finished (A:=A) it w i = true) ->
    (forall i r, r ∈ outcomes (A:=A) it w i -> r = ODone (Ok tt)) ->
    exists o' r, spamprob_evidence shelve_backend it s (fst (shelve_open (A:=A) (w_db w))) = (o', Ok r).
Proof. exact usable_refuted. Qed.
Print Assumptions C125_database_trained_by_overlapping_processes_can_be_used_refuted.

Example C125_case : forall A : num,
  (length [9; 9] = length two_trainers /\
   let w := together (A:=A) remove_dups ∅ two_trainers (concat (imap (fun i n => replicate n i) [9; 9])) in
   (forall i, i < length two_trainers -> finished (A:=A) remove_dups w i = true) /\
   w_db w !! str "a" = Some (DWord (WI 2 0)) /\ w_db w !! str "saved state" = Some (DState 5 2 0)) /\
  Forall (Forall reads) [[score_a; SLoad]; [SReopen; score_a]] /\
  (let w := together (A:=A) remove_dups ∅ two_trainers interleaved in
   outcomes (A:=A) remove_dups w 0 = [ODone (Ok tt); ODone (Ok tt); ODone (Ok tt)] /\
   outcomes (A:=A) remove_dups w 1 = [ODone (Ok tt); ODone (Ok tt); ODone (Ok tt)] /\
   w_db w !! str "a" = Some (DWord (WI 2 0)) /\ w_db w !! str "saved state" = Some (DState 5 1 0) /\
   snd (spamprob_evidence shelve_backend remove_dups msg_a (fst (shelve_open (A:=A) (w_db w)))) = Err Exception2).
Proof. exact (fun A => conj (two_turns A) (conj two_readers (two_trainers_run A))). Qed.

(** ** C126 *)
Theorem C126_shared_database_stays_well_kept_and_can_be_opened :
  forall (A : num) (it : set_order) (d : database) (progs : list (list sop)) (schedule : list nat),
  set_order_ok it -> well_kept d -> Forall (Forall plain_op) progs ->
  well_kept (w_db (together (A:=A) it d progs schedule)) /\
  exists o, shelve_open (A:=A) (w_db (together (A:=A) it d progs schedule)) = (o, Ok tt).
Proof. exact @shared_well_kept. Qed.
Print Assumptions C126_shared_database_stays_well_kept_and_can_be_opened.

Theorem C126_operations_beside_other_processes_end_as_expected :
  forall (it : set_order) (d : database) (progs : list (list sop)) (schedule : list nat)
    (i : nat) (xs : list sop) (n : nat) (r : outcome exact),
  set_order_ok it -> well_kept d -> Forall (Forall plain_op) progs -> progs !! i = Some xs ->
  outcomes it (together (A:=exact) it d progs schedule) i !! n = Some r ->
  exists x, (SReopen :: xs) !! n = Some x /\
    expected_end (exists xs x, xs ∈ progs /\ x ∈ xs /\ is_unlearn x) x r.
Proof. exact shared_outcomes. Qed.
Print Assumptions C126_operations_beside_other_processes_end_as_expected.

Theorem C126_scoring_beside_a_training_process_returns_refuted :
  forall A : num,
  ~ forall it progs schedule i s r, set_order_ok it -> Forall (Forall plain_op) progs ->
    (forall xs x, xs ∈ progs -> x ∈ xs -> ~ is_unlearn x) -> progs !! i = Some [SCall (CScore s)] ->
    outcomes (A:=A) it (together (A:=A) it ∅ progs schedule) i !! 1 = Some (OScore r) ->
    exists p, r = Ok p.
Proof. exact reader_refuted. Qed.
Print Assumptions C126_scoring_beside_a_training_process_returns_refuted.

Theorem C126_learning_beside_an_unlearning_process_returns_refuted :
  forall A : num,
  ~ forall it progs schedule i s b r, set_order_ok it -> Forall (Forall plain_op) progs ->
    progs !! i = Some [SCall (CLearn s b)] ->
    outcomes (A:=A) it (together (A:=A) it ∅ progs schedule) i !! 1 = Some (ODone r) -> r = Ok tt.
Proof. exact learn_refuted. Qed.
Print Assumptions C126_learning_beside_an_unlearning_process_returns_refuted.

Example C126_case : forall A : num,
  set_order_ok remove_dups /\ well_kept ∅ /\ Forall (Forall plain_op) reader_trainer /\
  Forall (Forall plain_op) learner_unlearner /\
  (let w := together (A:=A) remove_dups ∅ reader_trainer reader_first in
   outcomes (A:=A) remove_dups w 1 = [ODone (Ok tt); ODone (Ok tt); ODone (Ok tt); ODone (Ok tt)] /\
   outcomes (A:=A) remove_dups w 0 = [ODone (Ok tt); OScore (Err Exception2)]) /\
  (let w := together (A:=A) remove_dups ∅ learner_unlearner deleted_between in
   outcomes (A:=A) remove_dups w 0 = [ODone (Ok tt); ODone (Ok tt); ODone (Ok tt); ODone (Ok tt)] /\
   outcomes (A:=A) remove_dups w 1 = [ODone (Ok tt); ODone (Err KeyError)]).
Proof.
  exact (fun A => conj dups_ok (conj well_kept_empty (conj reader_trainer_plain (conj learner_unlearner_plain
    (conj (reader_trainer_run A) (learner_unlearner_run A)))))).
Qed.

(** ** C127 *)
Theorem C127_load_makes_an_object_like_a_freshly_opened_one_unless_the_totals_changed :
  forall (A : num) (it : set_order), set_order_ok it -> forall (d d' : database) (xs ys : list sop),
  well_kept d -> well_kept d' -> Forall plain_op xs -> Forall plain_op ys -> tidy false ys ->
  let o := fst (run_sops it xs (fst (shelve_open (A:=A) d))) in
  let o' := fst (shelve_open (A:=A) d') in
  (o_nspam o' = o_nspam o /\ o_nham o' = o_nham o) \/ (exists x zs, ys = x :: zs /\ trains x) ->
  snd (shelve_load d' o) = Ok tt /\
  snd (run_sops it ys (fst (shelve_load d' o))) = snd (run_sops it ys o').
Proof. exact @load_like_fresh. Qed.
Print Assumptions C127_load_makes_an_object_like_a_freshly_opened_one_unless_the_totals_changed.

Theorem C127_load_shows_what_other_processes_trained_refuted :
  ~ forall it d xs zs s, set_order_ok it -> well_kept d -> Forall plain_op xs -> Forall plain_op zs ->
    Forall plain (elems s) ->
    let o := fst (run_sops it xs (fst (shelve_open (A:=exact) d))) in
    let d' := s_db (o_store (fst (run_sops it zs (fst (shelve_open (A:=exact) (s_db (o_store o))))))) in
    snd (spamprob_evidence shelve_backend it s (fst (shelve_load d' o))) =
    snd (spamprob_evidence shelve_backend it s (fst (shelve_open (A:=exact) d'))).
Proof. exact load_refuted. Qed.
Print Assumptions C127_load_shows_what_other_processes_trained_refuted.

Example C127_case : set_order_ok remove_dups /\ well_kept once_each /\ Forall plain_op [learn_b; SSave] /\
  tidy false [learn_b; SSave] /\ trains learn_b /\
  (let o := fst (run_sops remove_dups [score_a] (fst (shelve_open (A:=exact) once_each))) in
   evidence_size (snd (spamprob_evidence shelve_backend remove_dups msg_a (fst (shelve_load trained_by_other o)))) = 2 /\
   evidence_size (snd (spamprob_evidence shelve_backend remove_dups msg_a (fst (shelve_open (A:=exact) trained_by_other)))) = 3).
Proof. exact (conj dups_ok (conj once_each_well_kept (conj plain_learn_b_save (conj I (conj I stale))))). Qed.
