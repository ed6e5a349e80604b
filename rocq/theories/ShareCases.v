(** * Concrete runs of processes sharing a database *)
From Coq Require Import String Lia Reals Lra.
From Verif Require Import Py NumModel ClassifierModel TrainSpec TrainProofs ScoreProofs RealModel RealSpec
  RealProofs ExactProofs ShelveModel ShelveSpec ShelveProofs ShelveRunProofs ShareModel ShareSpec ShareProofs
  ShareSoloProofs ShareWorldProofs ShareLoadProofs ShelveApiProofs.
Local Open Scope nat_scope.

Lemma well_kept_empty : well_kept ∅.
Proof. apply well_kept_wf, wf_db_empty. Qed.

Lemma two_readers : Forall (Forall reads) [[score_a; SLoad]; [SReopen; score_a]].
Proof. by repeat constructor. Qed.

Section runs.
  Context (A : num).

  (** Two processes learn one message each. *)
  Definition two_trainers : list (list sop) := [[learn_a; SSave]; [learn_a; SSave]].
  Definition interleaved : list nat := [0; 1; 0; 0; 0; 0; 1; 1; 1; 1; 1].

  Lemma two_trainers_plain : Forall (Forall plain_op) two_trainers.
  Proof. repeat constructor; try (apply plain_msg_a; tauto); intros w Hw; by apply elem_of_nil in Hw. Qed.

  Lemma two_trainers_run :
    let w := together (A:=A) remove_dups ∅ two_trainers interleaved in
    outcomes (A:=A) remove_dups w 0 = [ODone (Ok tt); ODone (Ok tt); ODone (Ok tt)] /\
    outcomes (A:=A) remove_dups w 1 = [ODone (Ok tt); ODone (Ok tt); ODone (Ok tt)] /\
    w_db w !! str "a" = Some (DWord (WI 2 0)) /\ w_db w !! str "saved state" = Some (DState 5 1 0) /\
    snd (spamprob_evidence shelve_backend remove_dups msg_a (fst (shelve_open (A:=A) (w_db w)))) = Err Exception2.
  Proof. cbv zeta. split_and!; vm_compute; reflexivity. Qed.

  Lemma two_turns : length [9; 9] = length two_trainers /\
    let w := together (A:=A) remove_dups ∅ two_trainers (concat (imap (fun i n => replicate n i) [9; 9])) in
    (forall i, i < length two_trainers -> finished (A:=A) remove_dups w i = true) /\
    w_db w !! str "a" = Some (DWord (WI 2 0)) /\ w_db w !! str "saved state" = Some (DState 5 2 0).
  Proof.
    cbv zeta. split; [reflexivity|]. split; [|split; vm_compute; reflexivity].
    intros i Hi. destruct i as [|[|i]]; [vm_compute; reflexivity..|]. simpl in Hi. lia.
  Qed.

  (** A process that only scores, beside one that learns two messages. *)
  Definition reader_trainer : list (list sop) := [[score_a]; [learn_a; learn_a; SSave]].
  Definition reader_first : list nat := 0 :: replicate 10 1 ++ [0; 0].

  Lemma reader_trainer_plain : Forall (Forall plain_op) reader_trainer.
  Proof. repeat constructor; try (apply plain_msg_a; tauto); intros w Hw; by apply elem_of_nil in Hw. Qed.

  Lemma reader_trainer_run :
    let w := together (A:=A) remove_dups ∅ reader_trainer reader_first in
    outcomes (A:=A) remove_dups w 1 = [ODone (Ok tt); ODone (Ok tt); ODone (Ok tt); ODone (Ok tt)] /\
    outcomes (A:=A) remove_dups w 0 = [ODone (Ok tt); OScore (Err Exception2)].
  Proof. cbv zeta. split_and!; vm_compute; reflexivity. Qed.

  (** A process that learns, beside one that takes its message back. *)
  Definition learner_unlearner : list (list sop) := [[learn_a; unlearn_a; SSave]; [learn_a]].
  Definition deleted_between : list nat := replicate 7 0 ++ [1; 1; 1] ++ [0; 0; 0] ++ [1; 1; 1].

  Lemma learner_unlearner_plain : Forall (Forall plain_op) learner_unlearner.
  Proof. repeat constructor; try (apply plain_msg_a; tauto); intros w Hw; by apply elem_of_nil in Hw. Qed.

  Lemma learner_unlearner_run :
    let w := together (A:=A) remove_dups ∅ learner_unlearner deleted_between in
    outcomes (A:=A) remove_dups w 0 = [ODone (Ok tt); ODone (Ok tt); ODone (Ok tt); ODone (Ok tt)] /\
    outcomes (A:=A) remove_dups w 1 = [ODone (Ok tt); ODone (Err KeyError)].
  Proof. cbv zeta. split_and!; vm_compute; reflexivity. Qed.
End runs.

(** ** load() beside a trainer *)
Definition word_a : pyword := WStr (str "a").
Definition msg_b : stream := SList [WStr (str "b")].
Definition learn_b : sop := SCall (CLearn msg_b true).
Definition once_each : database :=
  <[str "a" := DWord (WI 1 1)]> (<[str "saved state" := DState 5 1 1]> ∅).

Lemma plain_b : plain (WStr (str "b")).
Proof.
  exists (str "b"). split; [done|]. split; [|done].
  repeat constructor; intros [H _]; by apply H.
Qed.

Lemma plain_learn_b : plain_op learn_b.
Proof. intros w. simpl. rewrite elem_of_list_singleton. intros ->. apply plain_b. Qed.

Lemma plain_learn_b_save : Forall plain_op [learn_b; SSave].
Proof.
  constructor; [apply plain_learn_b|]. constructor; [|done]. intros w Hw. by apply elem_of_nil in Hw.
Qed.

Lemma once_each_well_kept : well_kept once_each.
Proof.
  intros k v. unfold once_each. rewrite lookup_insert_Some. intros [[<- <-]|[_ H]].
  - right. split; [apply plain_a|]. exists 1%Z, 1%Z. split; [done|]. lia.
  - left. rewrite lookup_insert_Some in H. destruct H as [[<- <-]|[_ H]]; [|by rewrite lookup_empty in H].
    split; [done|]. exists 1%Z, 1%Z. split; [done|]. lia.
Qed.

Definition evidence_size {A : num} (r : res (F A * list (pyword * F A))) : nat :=
  match r with Ok (_, ev) => length ev | Err _ => 0 end.

Lemma one_word_score (o o1 : obj exact sstore) (c : clue exact) :
  o_bigrams o = Some false -> worddistanceget shelve_backend word_a o = (o1, Ok c) ->
  (0 < c_prob c < 1)%R ->
  fst (spamprob_evidence shelve_backend remove_dups msg_a o) = o1 /\
  evidence_size (snd (spamprob_evidence shelve_backend remove_dups msg_a o)) =
  if significant c then 3 else 2.
Proof.
  intros Hb Hw Hp. unfold spamprob_evidence, getclues, mbind. rewrite Hb. unfold getclues_uni, mbind.
  cbn [msg_a elems]. change (remove_dups [WStr (str "a")]) with [word_a]. cbn [mmap]. unfold mbind.
  rewrite Hw. unfold mret. cbn [List.filter]. destruct (significant c) eqn:Es.
  - change (sort_clues [c]) with (@Ok (list (clue exact)) [c]). cbn [rbind].
    change (strongest [c]) with [c]. cbn [fmap list_fmap].
    rewrite score_probs_exact by (repeat constructor; tauto || done). done.
  - change (sort_clues (@nil (clue exact))) with (@Ok (list (clue exact)) []). cbn [rbind].
    change (strongest (@nil (clue exact))) with (@nil (clue exact)). cbn [fmap list_fmap].
    destruct score_probs_exact_nil as (S&H&->). done.
Qed.

Lemma look_up_a (o : obj exact sstore) (r : winfo) :
  s_mem (o_store o) = ∅ -> s_deleted (o_store o) = ∅ -> s_db (o_store o) !! str "a" = Some (DWord r) ->
  exists st, on_store (bk_get shelve_backend word_a) o = (with_store o st, Ok (Some r)).
Proof.
  intros Hm Hd Hr. unfold on_store, shelve_backend, bk_get, shelve_get. rewrite Hm, Hd.
  rewrite lookup_empty, decide_False by set_solver.
  assert (shelf_key word_a = Ok (str "a")) as -> by (vm_compute; reflexivity). rewrite Hr. eauto.
Qed.

Lemma probability_a (o : obj exact sstore) (r : winfo) p :
  s_mem (o_store o) = ∅ -> s_deleted (o_store o) = ∅ -> s_db (o_store o) !! str "a" = Some (DWord r) ->
  (o_cache o !! spamcount r ≫= (fun row => row !! hamcount r)) = Some p \/
    (o_cache o = ∅ /\ prob_formula (o_nspam o) (o_nham o) r = Ok p) ->
  exists o1, o_bigrams o1 = o_bigrams o /\ worddistanceget shelve_backend word_a o = (o1, Ok (Clue (nabs exact (nsub exact p (nQ exact 1 2))) p word_a (Some r))) /\
    (o_cache o = ∅ -> o_cache o1 = <[spamcount r := {[hamcount r := p]}]> ∅).
Proof.
  intros Hm Hd Hr Hp. destruct (look_up_a o r Hm Hd Hr) as (st&E). unfold worddistanceget, mbind.
  rewrite E. unfold probability. cbn [with_store o_cache o_nspam o_nham].
  destruct Hp as [Hp|[Hc Hp]].
  - rewrite Hp. eexists. split; [|split; [done|]]; [done|]. intros Hc. by rewrite Hc, lookup_empty in Hp.
  - rewrite Hc, lookup_empty. cbn [mbind option_bind]. rewrite Hp. eexists. split; [|split; [done|done]]. done.
Qed.

Definition trained_by_other : database := after (A:=exact) remove_dups once_each [learn_b; SSave].

Lemma first_prob : prob_formula (A:=exact) 1 1 (WI 1 1) = Ok (1 / 2)%R.
Proof.
  rewrite prob_formula_exact by (unfold consistent; simpl; lia). f_equal. unfold robinson, spam_share, fraction, nonempty_total. simpl. change (1 + 1)%Z with 2%Z. field.
Qed.

Lemma later_prob : prob_formula (A:=exact) 2 1 (WI 1 1) = Ok (107 / 294)%R.
Proof.
  rewrite prob_formula_exact by (unfold consistent; simpl; lia). f_equal. unfold robinson, spam_share, fraction, nonempty_total. simpl. change (1 + 1)%Z with 2%Z. field.
Qed.

(** The object refreshed with load() does not take the word for a clue, a freshly opened one does. *)
Lemma stale :
  let o := fst (run_sops remove_dups [score_a] (fst (shelve_open (A:=exact) once_each))) in
  evidence_size (snd (spamprob_evidence shelve_backend remove_dups msg_a (fst (shelve_load trained_by_other o)))) = 2 /\
  evidence_size (snd (spamprob_evidence shelve_backend remove_dups msg_a (fst (shelve_open (A:=exact) trained_by_other)))) = 3.
Proof.
  assert (trained_by_other !! str "a" = Some (DWord (WI 1 1))) as Ha by (vm_compute; reflexivity).
  assert (db_totals trained_by_other = (2, 1)%Z) as Ht by (vm_compute; reflexivity).
  assert (wf_db trained_by_other) as Hwf.
  { destruct (open_spec (A:=exact) once_each) as [_ I0]; [by apply well_kept_wf, once_each_well_kept|].
    destruct (run_sops_inv (A:=exact) remove_dups dups_ok [learn_b; SSave] _ I0) as (_&I&_).
    - apply plain_learn_b_save.
    - apply I. }
  intros o.
  destruct (probability_a (fst (shelve_open (A:=exact) once_each)) (WI 1 1) (1 / 2)%R) as (o1&Hb&E1&C1);
    [done|done|by vm_compute|right; split; [done|apply first_prob]|].
  assert (o_bigrams (fst (shelve_open (A:=exact) once_each)) = Some false) as Hb0 by (vm_compute; reflexivity).
  rewrite Hb0 in Hb.
  destruct (one_word_score _ _ _ Hb0 E1) as [F1 _]; [cbn; lra|].
  assert (o = o1) as Eo.
  { unfold o. rewrite <- F1. cbn [run_sops run_sop score_a run_call]. unfold score_a, run_sop, run_call.
    by destruct (spamprob_evidence _ _ _ _). }
  specialize (C1 eq_refl). split.
  - rewrite Eo, load_spec, Ht by done. cbn [fst snd].
    match goal with |- context [spamprob_evidence _ _ _ ?x] => set (o2 := x) end.
    destruct (probability_a o2 (WI 1 1) (1 / 2)%R) as (o3&_&E3&_); [done|done|done|left|].
    { cbn [o2 o_cache]. rewrite C1. by vm_compute. }
    destruct (one_word_score o2 _ _ Hb E3) as [_ ->]; [cbn; lra|].
    assert (significant (A:=exact) (Clue (nabs exact (nsub exact (1/2)%R (nQ exact 1 2))) (1/2)%R word_a (Some (WI 1 1))) = false) as ->; [|done].
    unfold significant, nge. apply negb_false_iff, rltb_true. cbn. unfold Rabs. destruct (Rcase_abs _); lra.
  - destruct (open_spec (A:=exact) _ Hwf) as [-> _]. rewrite Ht. cbn [fst snd].
    match goal with |- context [spamprob_evidence _ _ _ ?x] => set (o2 := x) end.
    destruct (probability_a o2 (WI 1 1) (107 / 294)%R) as (o3&_&E3&_); [done|done|done|right; split; [done|apply later_prob]|].
    destruct (one_word_score o2 _ _ eq_refl E3) as [_ ->]; [cbn; lra|].
    assert (significant (A:=exact) (Clue (nabs exact (nsub exact (107/294)%R (nQ exact 1 2))) (107/294)%R word_a (Some (WI 1 1))) = true) as ->; [|done].
    unfold significant, nge. apply negb_true_iff, rltb_false. cbn. unfold Rabs. destruct (Rcase_abs _); lra.
Qed.

(** ** The refuted expectations *)
Section refuted.
  Context (A : num).
  Notation after it := (fun (d : database) (xs : list sop) =>
    s_db (o_store (fst (run_sops it xs (fst (shelve_open (A:=A) d)))))).

  Lemma two_finished i : i < length two_trainers ->
    finished (A:=A) remove_dups (together (A:=A) remove_dups ∅ two_trainers interleaved) i = true.
  Proof.
    intros Hi. destruct i as [|[|i]]; [vm_compute; reflexivity..|]. simpl in Hi. lia.
  Qed.

  Lemma some_order_refuted :
    ~ forall it d progs schedule, set_order_ok it -> well_kept d -> Forall (Forall plain_op) progs ->
      let w := together (A:=A) it d progs schedule in
      (forall i, i < length progs -> finished (A:=A) it w i = true) ->
      exists order, order ≡ₚ progs /\ w_db w = foldl (after it) d order.
  Proof.
    intros H.
    destruct (H remove_dups ∅ two_trainers interleaved dups_ok well_kept_empty two_trainers_plain two_finished)
      as (order&Hp&E).
    assert (order = two_trainers) as ->.
    { symmetry in Hp. apply Permutation_length_2_inv in Hp as [->| ->]; reflexivity. }
    apply (f_equal (fun d : database => d !! str "saved state")) in E.
    destruct (two_trainers_run A) as (_&_&_&E'&_). rewrite E' in E. vm_compute in E. discriminate E.
  Qed.

  Lemma usable_refuted :
    ~ forall it progs schedule s, set_order_ok it -> Forall (Forall plain_op) progs ->
      (forall xs x, xs ∈ progs -> x ∈ xs -> ~ is_unlearn x) -> Forall plain (elems s) ->
      let w := together (A:=A) it ∅ progs schedule in
      (forall i, i < length progs -> finished (A:=A) it w i = true) ->
      (forall i r, r ∈ outcomes (A:=A) it w i -> r = ODone (Ok tt)) ->
      exists o' r, spamprob_evidence shelve_backend it s (fst (shelve_open (A:=A) (w_db w))) = (o', Ok r).
  Proof.
    intros H. destruct (two_trainers_run A) as (E0&E1&_&_&E2).
    destruct (H remove_dups two_trainers interleaved msg_a dups_ok two_trainers_plain) as (o'&r&E).
    - intros xs x. unfold two_trainers. rewrite !elem_of_cons, elem_of_nil.
      intros [->|[->|[]]]; rewrite !elem_of_cons, elem_of_nil; intros [->|[->|[]]]; by intros [].
    - constructor; [apply plain_a|done].
    - exact two_finished.
    - intros i r. destruct i as [|[|i]].
      + rewrite E0, !elem_of_cons, elem_of_nil. tauto.
      + rewrite E1, !elem_of_cons, elem_of_nil. tauto.
      + intros Hr. exfalso. revert Hr. clear. intros Hr. vm_compute in Hr. inversion Hr.
    - rewrite E in E2. discriminate E2.
  Qed.

  Lemma reader_refuted :
    ~ forall it progs schedule i s r, set_order_ok it -> Forall (Forall plain_op) progs ->
      (forall xs x, xs ∈ progs -> x ∈ xs -> ~ is_unlearn x) -> progs !! i = Some [SCall (CScore s)] ->
      outcomes (A:=A) it (together (A:=A) it ∅ progs schedule) i !! 1 = Some (OScore r) ->
      exists p, r = Ok p.
  Proof.
    intros H. destruct (reader_trainer_run A) as (_&E).
    destruct (H remove_dups reader_trainer reader_first 0 msg_a (Err Exception2) dups_ok reader_trainer_plain) as (p&Ep).
    - intros xs x. unfold reader_trainer. rewrite !elem_of_cons, elem_of_nil.
      intros [->|[->|[]]]; rewrite !elem_of_cons, elem_of_nil; [intros [->|[]]|intros [->|[->|[->|[]]]]]; by intros [].
    - reflexivity.
    - rewrite E. reflexivity.
    - discriminate Ep.
  Qed.

  Lemma learn_refuted :
    ~ forall it progs schedule i s b r, set_order_ok it -> Forall (Forall plain_op) progs ->
      progs !! i = Some [SCall (CLearn s b)] ->
      outcomes (A:=A) it (together (A:=A) it ∅ progs schedule) i !! 1 = Some (ODone r) -> r = Ok tt.
  Proof.
    intros H. destruct (learner_unlearner_run A) as (_&E).
    assert (Err KeyError = Ok tt) as X; [|discriminate X].
    apply (H remove_dups learner_unlearner deleted_between 1 msg_a true _ dups_ok learner_unlearner_plain eq_refl).
    rewrite E. reflexivity.
  Qed.
End refuted.

Lemma load_refuted :
  ~ forall it d xs zs s, set_order_ok it -> well_kept d -> Forall plain_op xs -> Forall plain_op zs ->
    Forall plain (elems s) ->
    let o := fst (run_sops it xs (fst (shelve_open (A:=exact) d))) in
    let d' := s_db (o_store (fst (run_sops it zs (fst (shelve_open (A:=exact) (s_db (o_store o))))))) in
    snd (spamprob_evidence shelve_backend it s (fst (shelve_load d' o))) =
    snd (spamprob_evidence shelve_backend it s (fst (shelve_open (A:=exact) d'))).
Proof.
  intros H. pose proof stale as [E1 E2].
  specialize (H remove_dups once_each [score_a] [learn_b; SSave] msg_a dups_ok once_each_well_kept
    (plain_ops_a [score_a] (fun x Hx => or_intror (or_intror (or_introl (proj1 (elem_of_list_singleton x score_a) Hx)))))
    plain_learn_b_save (proj2 (Forall_singleton plain (WStr (str "a"))) plain_a)).
  cbv zeta in H. apply (f_equal evidence_size) in H.
  assert (s_db (o_store (fst (run_sops remove_dups [score_a] (fst (shelve_open (A:=exact) once_each))))) = once_each) as Ed.
  { destruct (open_spec (A:=exact) once_each) as [Eo I0]; [by apply well_kept_wf, once_each_well_kept|].
    unfold run_sops, run_sop, score_a, run_call.
    destruct (score_spec (A:=exact) remove_dups dups_ok _ msg_a I0) as (o'&->&_&_&_&_&_&W);
      [constructor; [apply plain_a|constructor]|]. cbn [fst]. rewrite W, Eo. reflexivity. }
  rewrite Ed in H. fold (after (A:=exact) remove_dups once_each [learn_b; SSave]) in H. fold trained_by_other in H.
  rewrite E1, E2 in H. discriminate H.
Qed.
