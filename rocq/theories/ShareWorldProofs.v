(** * All processes together *)
From Coq Require Import String Lia Reals Lra.
From Verif Require Import Py NumModel ClassifierModel TrainSpec TrainProofs RealModel RealSpec RealProofs
  ExactProofs ShelveModel ShelveSpec ShelveProofs ShelveRunProofs ShareModel ShareSpec ShareProofs.
Local Open Scope nat_scope.

Section world.
  Context {A : num} (it : set_order) (Hit : set_order_ok it) (G : Prop).
  Notation pobj := (obj A pstore).
  Context (K : F A -> Prop) (SE : exn -> Prop).
  Context (HK : forall ns nh r, (0 <= ns)%Z -> (0 <= nh)%Z -> wf_record r ->
    match prob_formula (A:=A) ns nh r with Ok p => K p | Err e => SE e end).
  Context (HU : K UNKNOWN_WORD_PROB).
  Context (HS : forall ps, Forall K ps ->
    match score_probs A ps with Ok _ => True | Err e => SE e end).

  Notation oready := (oready G K).
  Notation omoved := (omoved G).

  Definition ends (x : sop) (r : outcome A) : Prop :=
    match x, r with
    | (SReopen | SLoad | SSave), ODone r => r = Ok tt
    | SCall (CLearn _ _), ODone r => r = Ok tt \/ (r = Err KeyError /\ ~ G)
    | SCall (CUnlearn _ _), ODone r => r = Ok tt \/ r = Err ValueError \/ r = Err KeyError
    | SCall (CScore _), OScore (Ok _) => True
    | SCall (CScore _), OScore (Err e) => SE e \/ (e = KeyError /\ ~ G)
    | _, _ => False
    end.

  Definition legal (x : sop) : Prop := plain_op x /\ (is_unlearn x -> ~ G).

  Lemma unfinished_err e : @unfinished A (ODone (Err e)) = false -> e <> PAUSED.
  Proof. cbn. by intros H%bool_decide_eq_false. Qed.

  Lemma done_ok (x : sop) (r : res unit) :
    match r with Ok _ => True | Err e => just_paused e end ->
    @unfinished A (ODone r) = false -> r = Ok tt.
  Proof. destruct r as [[]|e]; [done|]. intros -> H. by apply unfinished_err in H. Qed.

  Lemma op_ends (x : sop) (o : pobj) : oready o -> legal x -> exists o' r,
    run_shared_op it x o = (o', r) /\ oready o' /\ omoved o o' /\ (unfinished r = false -> ends x r).
  Proof.
    intros Ho [Hx Hu]. destruct x as [[s b|s b|s]| | |]; cbn [run_shared_op run_call].
    - destruct (org_learn it Hit G K s b (plain_elems _ s Hx eq_refl) o Ho) as (o'&r&E&R&Mv&Q).
      rewrite E. exists o', (ODone r). split_and!; [done..|]. intros Hf. cbn.
      destruct r as [[]|e]; [by left|right]. apply unfinished_err in Hf. destruct Q as [->|[-> ?]]; done.
    - destruct (org_unlearn it Hit G K s b (Hu I) (plain_elems _ s Hx eq_refl) o Ho) as (o'&r&E&R&Mv&Q).
      rewrite E. exists o', (ODone r). split_and!; [done..|]. intros Hf. cbn.
      destruct r as [[]|e]; [by left|right]. apply unfinished_err in Hf.
      destruct Q as [[->|[-> ?]]| ->]; auto. done.
    - destruct (org_score it Hit G K SE HK HU HS s (plain_elems _ s Hx eq_refl) o Ho) as (o'&r&E&R&Mv&Q).
      rewrite E. exists o', (OScore r). split_and!; [done..|]. intros Hf.
      destruct r as [?|e]; cbn; [done|]. apply (unfinished_err e) in Hf.
      destruct Q as [[->|[-> ?]]|?]; auto. done.
    - destruct (org_save it Hit G K o Ho) as (o'&r&E&R&Mv&Q). rewrite E. exists o', (ODone r).
      split_and!; [done..|]. by apply (done_ok SSave).
    - destruct (org_load it Hit G K SE HK HU HS o Ho) as (o'&r&E&R&Mv&Q). rewrite E. exists o', (ODone r).
      split_and!; [done..|]. by apply (done_ok SLoad).
    - destruct (o_store o) as [st env] eqn:Es.
      assert (oready (c_new false (SStore (s_db st) ∅ ∅ ∅ (s_log st), env))) as Ho'.
      { pose proof (or_store G K o Ho) as Hr. rewrite Es in Hr. destruct Hr as (Hi&He&Hs&Hg).
        constructor; cbn [c_new o_store fst snd o_nspam o_nham o_bigrams].
        - split; [|split; [done|split; [done|done]]].
          constructor; cbn; [apply Hi|..]; intros w; [by rewrite lookup_empty|set_solver..].
        - done.
        - done.
        - intros sc row hc p. cbn [c_new o_cache]. by rewrite lookup_empty. }
      destruct (org_load it Hit G K SE HK HU HS _ Ho') as (o'&r&E&R&Mv&Q). rewrite E. exists o', (ODone r).
      split_and!; [done|done| |by apply (done_ok SReopen)].
      unfold ShareProofs.omoved in *. rewrite Es. exact Mv.
  Qed.

  Lemma run_ends (xs : list sop) : forall (o : pobj), oready o -> Forall legal xs -> exists o' rs,
    run_shared it xs o = (o', rs) /\ oready o' /\ omoved o o' /\
    forall n r, rs !! n = Some r -> exists x, xs !! n = Some x /\ ends x r.
  Proof.
    induction xs as [|x xs IH]; intros o Ho Hxs; cbn [run_shared].
    { exists o, []. split_and!; [done|done|apply moved_refl|]. intros n r. by rewrite lookup_nil. }
    apply Forall_cons in Hxs as [Hx Hxs].
    destruct (op_ends x o Ho Hx) as (o1&r1&E1&R1&M1&Q1). rewrite E1.
    destruct (unfinished r1) eqn:Hf.
    { exists o1, []. split_and!; [done|done|done|]. intros n r. by rewrite lookup_nil. }
    destruct (IH o1 R1 Hxs) as (o2&rs&E2&R2&M2&Q2). rewrite E2.
    exists o2, (r1 :: rs). split_and!; [done|done|by eapply moved_trans|].
    intros [|n] r; simpl; [|apply Q2]. intros [= <-]. eauto.
  Qed.

  Record winv (w : world) : Prop := {
    wi_db : wf_db (w_db w);
    wi_procs : forall i xs seen, w_procs w !! i = Some (xs, seen) ->
      Forall legal xs /\ Forall wf_db seen /\ StronglySorted (grows G) seen /\
      Forall (fun d => grows G d (w_db w)) seen
  }.

  Lemma sorted_snoc (seen : list database) (d : database) : StronglySorted (grows G) seen -> Forall (fun d' => grows G d' d) seen ->
    StronglySorted (grows G) (seen ++ [d]).
  Proof.
    induction 1 as [|x l Hl IH Hx]; intros Hd; simpl; [repeat constructor|].
    apply Forall_cons in Hd as [Hxd Hd]. constructor; [by apply IH|].
    apply Forall_app. split; [done|]. by constructor.
  Qed.

  Lemma process_ends (xs : list sop) (seen : list database) : Forall legal xs -> Forall wf_db seen -> StronglySorted (grows G) seen ->
    exists o' rs, process it xs seen = (o', rs) /\ oready o' /\
      moved G (SStore ∅ ∅ ∅ ∅ []) seen (o_store o').1 (o_store o').2 /\
      forall n r, rs !! n = Some r -> exists x, (SReopen :: xs) !! n = Some x /\ ends x r.
  Proof.
    intros Hxs Hs Hso.
    destruct (run_ends (SReopen :: xs) (c_new false (SStore ∅ ∅ ∅ ∅ [], seen))) as (o'&rs&E&X).
    - constructor; cbn [c_new o_store fst snd o_nspam o_nham o_bigrams]; [|done|done|].
      + split; [|split; [done|split; [done|done]]].
        constructor; cbn; [apply wf_db_empty|..]; intros w; [by rewrite lookup_empty|set_solver..].
      + intros sc row hc p. cbn [c_new o_cache]. by rewrite lookup_empty.
    - constructor; [|done]. split; [|by intros []]. intros w. cbn. set_solver.
    - exists o', rs. split; [exact E|exact X].
  Qed.

  Lemma step_inv (w : world) (i : nat) : winv w -> winv (step (A:=A) it w i).
  Proof.
    intros [Hd Hp]. unfold step. destruct (w_procs w !! i) as [[xs seen]|] eqn:Ei; [|by constructor].
    destruct (Hp i xs seen Ei) as (Hxs&Hs&Hso&Hgr).
    assert (Forall wf_db (seen ++ [w_db w])) as Hs' by (apply Forall_app; split; [done|by constructor]).
    pose proof (sorted_snoc seen (w_db w) Hso Hgr) as Hso'.
    destruct (process_ends xs (seen ++ [w_db w]) Hxs Hs' Hso') as (o'&rs&E&R&Mv&_).
    rewrite E. cbn [fst]. pose proof (or_store G K o' R) as ([Hdb _ _ _]&_).
    destruct (o_store o') as [st [|d env]]; [|by constructor]. cbn [fst snd] in *.
    destruct Mv as (used&Eu&Hg). rewrite app_nil_r in Eu. subst used. rewrite last_snoc in Hg. cbn in Hg.
    constructor; cbn [w_db w_procs]; [done|]. intros j ys seen' Hj.
    destruct (decide (j = i)) as [->|Hne].
    - rewrite list_lookup_insert in Hj by (by eapply lookup_lt_Some). injection Hj as <- <-.
      split; [done|]. split; [done|]. split; [done|]. apply Forall_app. split; [|by constructor].
      eapply Forall_impl; [exact Hgr|]. cbv beta. intros d Hd' k Hk Hsm. by apply Hg, Hd'.
    - rewrite list_lookup_insert_ne in Hj by done. destruct (Hp j ys seen' Hj) as (Hy&Hs2&Hso2&Hgr2).
      split; [done|]. split; [done|]. split; [done|].
      eapply Forall_impl; [exact Hgr2|]. cbv beta. intros d Hd' k Hk Hsm. by apply Hg, Hd'.
  Qed.

  Lemma together_inv (d : database) (progs : list (list sop)) (schedule : list nat) : wf_db d -> Forall (Forall legal) progs ->
    winv (together (A:=A) it d progs schedule).
  Proof.
    intros Hd Hp. unfold together.
    assert (winv (World d ((fun xs => (xs, [])) <$> progs))) as H0.
    { constructor; cbn [w_db w_procs]; [done|]. intros i xs seen Hi.
      apply list_lookup_fmap_Some in Hi as (xs'&Hx&[= -> ->]).
      split; [|by repeat constructor]. rewrite Forall_forall in Hp. apply Hp.
      by eapply elem_of_list_lookup_2. }
    revert H0. generalize (World d ((fun xs => (xs, [])) <$> progs)).
    induction schedule as [|i l IH]; intros w Hw; [done|]. simpl. apply IH. by apply step_inv.
  Qed.

  Lemma procs_kept (schedule : list nat) : forall (w : world) (i : nat), fst <$> w_procs (foldl (step (A:=A) it) w schedule) !! i = fst <$> w_procs w !! i.
  Proof.
    induction schedule as [|j l IH]; intros w i; [done|]. simpl. rewrite IH. unfold step.
    destruct (w_procs w !! j) as [[xs seen]|] eqn:Ej; [|done].
    destruct (o_store _) as [st [|d env]]; [|done]. cbn [w_procs].
    destruct (decide (i = j)) as [->|Hne]; [|by rewrite list_lookup_insert_ne].
    rewrite list_lookup_insert by (by eapply lookup_lt_Some). by rewrite Ej.
  Qed.

  Lemma together_outcomes (d : database) (progs : list (list sop)) (schedule : list nat)
      (i : nat) (xs : list sop) (n : nat) (r : outcome A) : wf_db d -> Forall (Forall legal) progs ->
    progs !! i = Some xs ->
    outcomes it (together (A:=A) it d progs schedule) i !! n = Some r ->
    exists x, (SReopen :: xs) !! n = Some x /\ ends x r.
  Proof.
    intros Hd Hp Hi. unfold outcomes.
    pose proof (procs_kept schedule (World d ((fun xs => (xs, [])) <$> progs)) i) as Hk.
    fold (together (A:=A) it d progs schedule) in Hk. cbn [w_procs] in Hk.
    rewrite list_lookup_fmap, Hi in Hk. cbn in Hk.
    destruct (w_procs _ !! i) as [[ys seen]|] eqn:Ei; [|done]. cbn in Hk. injection Hk as ->.
    destruct (together_inv d progs schedule Hd Hp) as [_ Hw].
    destruct (Hw i xs seen Ei) as (Hxs&Hs&Hso&_).
    destruct (process_ends xs seen Hxs Hs Hso) as (o'&rs&E&_&_&X). rewrite E. cbn [snd]. apply X.
  Qed.
End world.

Lemma well_kept_wf (d : database) : well_kept d <-> wf_db d.
Proof.
  split.
  - intros H. split.
    + intros k r E. destruct (H k _ E) as [(->&s&h&?&_)|(Hp&s&h&[= ->]&?&?&?)]; [done|].
      split; [|done]. unfold wf_record. simpl. lia.
    + intros k v s h E. destruct (H k _ E) as [(->&s'&h'&[= -> -> ->]&?&?)|(_&?&?&?&_)]; done.
  - intros [H1 H2] k [r|v s h] E.
    + right. destruct (H1 k r E) as [Hr Hp]. split; [done|]. destruct r as [s h].
      exists s, h. unfold wf_record in Hr. simpl in Hr. split; [done|]. lia.
    + left. destruct (H2 k v s h E) as (->&->&?&?). split; [done|]. by exists s, h.
Qed.

(** Any arithmetic: the database stays well kept. *)
Lemma shared_well_kept {A : num} (it : set_order) (d : database) (progs : list (list sop))
    (schedule : list nat) : set_order_ok it -> well_kept d ->
  Forall (Forall plain_op) progs ->
  well_kept (w_db (together (A:=A) it d progs schedule)) /\
  exists o, shelve_open (A:=A) (w_db (together (A:=A) it d progs schedule)) = (o, Ok tt).
Proof.
  intros Hit Hd Hp. apply well_kept_wf in Hd.
  assert (winv False (together (A:=A) it d progs schedule)) as [Hw _].
  { apply (together_inv it Hit False (fun _ => True) (fun _ => True)); [| | |done|].
    - intros. by destruct (prob_formula _ _ _).
    - done.
    - intros. by destruct (score_probs _ _).
    - eapply Forall_impl; [exact Hp|]. intros xs Hxs. eapply Forall_impl; [exact Hxs|].
      intros x Hx. split; [exact Hx|]. by intros _ []. }
  split; [by apply well_kept_wf|].
  destruct (open_spec (A:=A) _ Hw) as [E _]. eauto.
Qed.

Definition unit_open (p : R) : Prop := (0 < p < 1)%R.

Lemma exact_prob ns nh r : (0 <= ns)%Z -> (0 <= nh)%Z -> wf_record r ->
  match prob_formula (A:=exact) ns nh r with Ok p => unit_open p | Err e => e = Exception1 \/ e = Exception2 end.
Proof.
  intros Hn Hm Hr.
  destruct (prob_formula (A:=exact) ns nh r) as [p|e] eqn:E.
  - destruct Hr as (H1&H2&H3).
    pose proof (prob_formula_consistent ns nh r p Hn Hm H1 H2 ltac:(lia) E) as Hc.
    rewrite (prob_formula_exact ns nh r Hc) in E. injection E as <-. by apply robinson_range.
  - revert E. unfold prob_formula.
    destruct (_ <? hamcount r)%Z eqn:E1; [intros [= <-]; by left|].
    destruct (_ <? spamcount r)%Z eqn:E2; [intros [= <-]; by right|].
    intros E. exfalso.
    assert (consistent (spamcount r) ns (hamcount r) nh) as Hc.
    { apply Z.ltb_ge in E1, E2. destruct Hr as (H1&H2&H3). unfold consistent. split_and!; done || lia. }
    pose proof (prob_formula_exact ns nh r Hc) as E'. unfold prob_formula in E'.
    rewrite E1, E2 in E'. rewrite E' in E. done.
Qed.

Lemma exact_scores (ps : list (F exact)) : Forall unit_open ps ->
  match score_probs exact ps with Ok _ => True | Err e => e = Exception1 \/ e = Exception2 end.
Proof.
  intros Hps. destruct ps as [|p ps].
  - destruct score_probs_exact_nil as (S&H&->). done.
  - by rewrite (score_probs_exact (p :: ps) Hps).
Qed.

Lemma exact_unknown : unit_open (UNKNOWN_WORD_PROB (A:=exact)).
Proof. unfold unit_open, UNKNOWN_WORD_PROB. cbn. lra. Qed.

Definition unlearnb (x : sop) : bool := match x with SCall (CUnlearn _ _) => true | _ => false end.

Lemma shared_outcomes (it : set_order) (d : database) (progs : list (list sop)) (schedule : list nat)
    (i : nat) (xs : list sop) (n : nat) (r : outcome exact) : set_order_ok it -> well_kept d ->
  Forall (Forall plain_op) progs -> progs !! i = Some xs ->
  outcomes it (together (A:=exact) it d progs schedule) i !! n = Some r ->
  exists x, (SReopen :: xs) !! n = Some x /\
    expected_end (exists xs x, xs ∈ progs /\ x ∈ xs /\ is_unlearn x) x r.
Proof.
  intros Hit Hd Hp Hi Hr. apply well_kept_wf in Hd.
  set (U := exists xs x, xs ∈ progs /\ x ∈ xs /\ is_unlearn x).
  assert (U \/ ~ U) as HU.
  { destruct (existsb (existsb unlearnb) progs) eqn:E.
    - left. apply existsb_exists in E as (ys&Hy&E). apply existsb_exists in E as (x&Hx&E).
      exists ys, x. rewrite !elem_of_list_In. split; [done|]. split; [done|]. by destruct x as [[]| | |].
    - right. intros (ys&x&Hy&Hx&Hu). apply not_true_iff_false in E. apply E.
      apply existsb_exists. exists ys. rewrite <- elem_of_list_In. split; [done|].
      apply existsb_exists. exists x. rewrite <- elem_of_list_In. split; [done|]. by destruct x as [[]| | |]. }
  destruct (together_outcomes (A:=exact) it Hit (~ U) unit_open (fun e => e = Exception1 \/ e = Exception2)
    exact_prob exact_unknown exact_scores d progs schedule i xs n r Hd) as (x&Hx&He); [|done|done|].
  { rewrite Forall_forall in *. intros ys Hy. specialize (Hp ys Hy). rewrite Forall_forall in *.
    intros x Hx. split; [by apply Hp|]. intros Hu HnU. apply HnU. by exists ys, x. }
  exists x. split; [done|].
  assert (~ ~ U -> U) as Hdn by (destruct HU; tauto).
  destruct x as [[]| | |], r as [r|r]; cbn in *; try done.
  - destruct He as [?|[??]]; auto.
  - destruct r as [|e]; [done|]. destruct He as [[?|?]|[??]]; auto.
Qed.
