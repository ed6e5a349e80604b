(** * The statements behind C25 - C27, with their witnesses *)
From Coq Require Import String Lia Reals Lra.
From Verif Require Import Py NumModel ClassifierModel TrainSpec TrainProofs ScoreProofs
  SortProofs ScoreSpec ClueProofs RealModel RealSpec RealProofs ExactProofs ApiProofs
  ShelveModel ShelveSpec ShelveProofs ShelveRunProofs ShelveCrashProofs.
Local Open Scope nat_scope.

Lemma dups_ok : set_order_ok remove_dups.
Proof. split; [apply NoDup_remove_dups|]. intros w. apply elem_of_remove_dups. Qed.

Lemma plain_a : plain (WStr (str "a")).
Proof.
  exists (str "a"). split_and!; [done| |done].
  repeat constructor; intros [H _]; by apply H.
Qed.

Definition msg_a : stream := SList [WStr (str "a")].

Lemma plain_msg_a (c : call) : c = CLearn msg_a true \/ c = CUnlearn msg_a true \/ c = CScore msg_a ->
  plain_op (SCall c).
Proof.
  intros [-> |[-> | ->]] w; simpl; rewrite elem_of_list_singleton; intros ->; apply plain_a.
Qed.

Definition learn_a : sop := SCall (CLearn msg_a true).
Definition unlearn_a : sop := SCall (CUnlearn msg_a true).
Definition score_a : sop := SCall (CScore msg_a).

Lemma plain_ops_a xs : (forall x, x ∈ xs -> x = learn_a \/ x = unlearn_a \/ x = score_a \/ mentions x = []) ->
  Forall plain_op xs.
Proof.
  intros H. apply Forall_forall. intros x Hx.
  destruct (H x Hx) as [-> |[-> |[-> |E]]]; try (apply plain_msg_a; tauto).
  intros w. rewrite E. intros Hw. by apply elem_of_nil in Hw.
Qed.

Section witnesses.
  Context (A : num).
  Notation sobj := (obj A sstore).

  Lemma listing_untrained : shelve_keys (fst (shelve_open (A:=A) ∅)) = Err ValueError.
  Proof. reflexivity. Qed.

  Lemma listing_before_store :
    exists it xs ks k, set_order_ok it /\ Forall plain_op xs /\
    let o := fst (run_sops it xs (fst (shelve_open (A:=A) ∅))) in
    shelve_keys o = Ok ks /\ k ∈ ks /\ recorded o (WStr k) = Ok None.
  Proof.
    exists remove_dups, [learn_a; unlearn_a]. eexists. exists (str "a").
    cbv zeta; split_and!; [apply dups_ok| |vm_compute; reflexivity| |vm_compute; reflexivity].
    - apply plain_ops_a. intros x. rewrite !elem_of_cons, elem_of_nil. tauto.
    - by vm_compute.
  Qed.

  Lemma crash_after_unlearn :
    exists it xs (o : sobj), set_order_ok it /\ Forall plain_op xs /\
    let log := s_log (o_store (fst (run_sops it xs (fst (shelve_open (A:=A) ∅))))) in
    shelve_open (replay ∅ log) = (o, Ok tt) /\
    snd (spamprob_evidence shelve_backend it msg_a o) = Err Exception2.
  Proof.
    exists remove_dups, [learn_a; learn_a; learn_a; SSave; unlearn_a]. eexists.
    cbv zeta; split_and!; [apply dups_ok| |vm_compute; reflexivity|vm_compute; reflexivity].
    apply plain_ops_a. intros x. rewrite !elem_of_cons, elem_of_nil.
    intros [->|[->|[->|[->|[->|[]]]]]]; tauto.
  Qed.

  Lemma retraining_after_crash :
    exists it xs n xs' , set_order_ok it /\ Forall plain_op xs /\ Forall plain_op xs' /\
      Forall (fun x => ~ is_unlearn x) (xs ++ xs') /\
    let log := s_log (o_store (fst (run_sops it xs (fst (shelve_open (A:=A) ∅))))) in
    let o := fst (run_sops it xs' (fst (shelve_open (A:=A) (replay ∅ (take n log))))) in
    snd (spamprob_evidence shelve_backend it msg_a o) = Err Exception2.
  Proof.
    exists remove_dups, [learn_a], 1, [learn_a].
    cbv zeta; split_and!; [apply dups_ok| | | |vm_compute; reflexivity].
    - apply plain_ops_a. intros x. rewrite !elem_of_cons, elem_of_nil. tauto.
    - apply plain_ops_a. intros x. rewrite !elem_of_cons, elem_of_nil. tauto.
    - repeat constructor; by intros [].
  Qed.
End witnesses.

(** C26 *)
Lemma crash_point_counts A it xs n : set_order_ok it -> Forall plain_op xs ->
  Forall (fun x => ~ is_unlearn x) xs ->
  let log := s_log (o_store (fst (run_sops it xs (fst (shelve_open (A:=A) ∅))))) in
  exists o : obj A sstore, shelve_open (replay ∅ (take n log)) = (o, Ok tt) /\
  forall w r, plain w -> recorded o w = Ok (Some r) ->
    consistent (spamcount r) (o_nspam o) (hamcount r) (o_nham o).
Proof.
  intros Hit Hxs Hu log. destruct (good_open (A:=A) (replay ∅ (take n log))) as (o&E&_&H).
  - by apply crash_good.
  - by exists o.
Qed.

Lemma crash_point_scores it it' xs n s : set_order_ok it -> set_order_ok it' -> Forall plain_op xs ->
  Forall (fun x => ~ is_unlearn x) xs -> Forall plain (elems s) ->
  let log := s_log (o_store (fst (run_sops it xs (fst (shelve_open (A:=exact) ∅))))) in
  exists (o o' : obj exact sstore) p ev, shelve_open (replay ∅ (take n log)) = (o, Ok tt) /\
    spamprob_evidence shelve_backend it' s o = (o', Ok (p, ev)).
Proof.
  intros Hit Hit' Hxs Hu Hs log. destruct (good_open (A:=exact) (replay ∅ (take n log))) as (o&E&I&H).
  - by apply crash_good.
  - destruct (consistent_score it' o s Hit' I H Hs) as (o'&p&ev&E'). by exists o, o', p, ev.
Qed.

(** C27 *)
Section foreign_words.
  Context {A : num} (it : set_order) (Hit : set_order_ok it).
  Notation sobj := (obj A sstore).

  Lemma reachable_oinv (P : sop -> Prop) d xs : (forall x, P x -> plain_op x) -> left_behind A P d ->
    Forall plain_op xs -> oinv (fst (run_sops it xs (fst (shelve_open (A:=A) d)))).
  Proof.
    intros HP Hl Hxs. pose proof (left_behind_wf A P d HP Hl) as Hd.
    destruct (open_spec (A:=A) d Hd) as [_ I0].
    by destruct (run_sops_inv it Hit xs _ I0 Hxs) as (_&I&_).
  Qed.

  Lemma keys_state (o : sobj) ks : shelve_keys o = Ok ks -> is_Some (s_db (o_store o) !! STATE_KEY).
  Proof. unfold shelve_keys. destruct (decide _) as [H|]; [|done]. by apply elem_of_dom in H. Qed.

  Lemma learn_state_key_fails d xs ks s b : left_behind A plain_op d -> Forall plain_op xs ->
    let o := fst (run_sops it xs (fst (shelve_open (A:=A) d))) in
    shelve_keys o = Ok ks ->
    WStr STATE_KEY ∈ elems s -> (forall w, w ∈ elems s -> plain w \/ w = WStr STATE_KEY) ->
    snd (learn shelve_backend it s b o) = Err ValueError.
  Proof.
    intros Hl Hxs o Hk Hin Hw. destruct (keys_state o ks Hk) as [x Hx].
    eapply (state_key_learn it Hit); try done. eapply reachable_oinv; try done.
  Qed.

  (** A database is trained, as the listing shows, after any successful call. *)
  Lemma trained_lists d xs s b : left_behind A plain_op d -> Forall plain_op xs -> Forall plain (elems s) ->
    let o := fst (run_sops it (xs ++ [SCall (CLearn s b)]) (fst (shelve_open (A:=A) d))) in
    exists ks, shelve_keys o = Ok ks.
  Proof.
    intros Hl Hxs Hs. rewrite run_sops_app. 
    pose proof (reachable_oinv plain_op d xs (fun x H => H) Hl Hxs) as I.
    destruct (run_sops it xs _) as [o rs]. simpl in I |- *.
    destruct (learn_spec it Hit o s b I Hs) as (st'&log&E&I'&L'&W&S1). rewrite E. simpl.
    unfold shelve_keys. rewrite decide_True; [eauto|]. cbn [o_store].
    destruct W as [_ W]. rewrite W. unfold replay. rewrite foldl_app. simpl.
    rewrite dom_insert. set_solver.
  Qed.

  Lemma learn_foreign_fails d xs s b : left_behind A plain_op d -> Forall plain_op xs ->
    elems s <> [] -> (forall w t, w ∈ elems s -> w <> WStr t) ->
    let o := fst (run_sops it xs (fst (shelve_open (A:=A) d))) in
    exists o' : sobj, learn shelve_backend it s b o = (o', Err AttributeError) /\
      total_of b o' = (total_of b o + 1)%Z /\ total_of (negb b) o' = total_of (negb b) o /\
      s_db (o_store o') = s_db (o_store o) /\
      snd (spamprob_evidence shelve_backend it s o) = Err AttributeError.
  Proof.
    intros Hl Hxs Hne Hw o.
    pose proof (reachable_oinv plain_op d xs (fun x H => H) Hl Hxs) as I.
    destruct (foreign_learn it Hit o s b I Hne Hw) as (o'&E&T1&T2&T3). exists o'.
    split_and!; try done; [by rewrite T3|]. by apply (foreign_score it Hit).
  Qed.
End foreign_words.

