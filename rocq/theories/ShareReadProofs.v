(** * Processes that only read *)
From Coq Require Import String Lia.
From Verif Require Import Py NumModel ClassifierModel ShelveModel ShareModel ShareSpec ShareSoloProofs.

Section keeps.
  Context {X : Type} (P : X -> Prop).
  Definition keeps {B} (m : M X B) : Prop := forall x, P x -> P (fst (m x)).

  Lemma keeps_pure {B} (f : X -> res B) : keeps (fun x => (x, f x)).
  Proof. by intros x Hx. Qed.
  Lemma keeps_mbind {B C} (m : M X B) (k : B -> M X C) : keeps m -> (forall b, keeps (k b)) -> keeps (mbind m k).
  Proof.
    intros Hm Hk x Hx. unfold mbind. specialize (Hm x Hx). destruct (m x) as [x1 [b|e]]; [by apply Hk|done].
  Qed.
  Lemma keeps_mmap {T B} (l : list T) (b : T -> M X B) : (forall t, keeps (b t)) -> keeps (mmap l b).
  Proof.
    intros Hb. induction l as [|t l IH]; simpl; [apply keeps_pure|].
    apply keeps_mbind; [done|]. intros y. apply keeps_mbind; [done|]. intros ys. apply keeps_pure.
  Qed.
End keeps.

Section readers.
  Context {A : num} (it : set_order).
  Notation sobj := (obj A sstore).
  Notation pobj := (obj A pstore).
  Context (d : database).

  Definition all_d (s : pstore) : Prop := s_db s.1 = d /\ Forall (eq d) s.2.
  Definition oall_d (o : pobj) : Prop := all_d (o_store o).

  Lemma keeps_access {B : Type} (f : sstore -> res B) : keeps all_d (access (fun st => (st, f st))).
  Proof.
    intros [st [|d' env]] [H1 H2]; [done|]. apply Forall_cons in H2 as [<- H2]. done.
  Qed.

  Lemma keeps_get (w : pyword) : keeps all_d (shared_get w).
  Proof.
    intros [st env] [H1 H2]. unfold shared_get. destruct (s_mem st !! w); [done|].
    destruct (decide _); [done|]. destruct (shelf_key w) as [k|e]; [|done].
    apply (keeps_mbind all_d); [apply keeps_access| |done]. intros [|]; [|apply keeps_pure].
    apply keeps_mbind; [apply keeps_access|]. intros [r|v s h]; [|apply keeps_pure].
    by intros [st1 env1] [H3 H4].
  Qed.

  Lemma keeps_on_store {B : Type} (m : M pstore B) : keeps all_d m -> keeps oall_d (on_store m).
  Proof. intros Hm o Ho. unfold on_store. specialize (Hm (o_store o) Ho). by destruct (m (o_store o)). Qed.

  Lemma keeps_wdg (w : pyword) : keeps oall_d (worddistanceget shared_backend w).
  Proof.
    unfold worddistanceget. apply keeps_mbind; [apply keeps_on_store, keeps_get|]. intros r.
    apply keeps_mbind; [|intros; apply keeps_pure]. destruct r as [r|]; [|apply keeps_pure].
    intros o Ho. unfold probability. destruct (_ ≫= _); [done|]. by destruct (prob_formula _ _ _).
  Qed.

  Lemma keeps_bigram_raw (l : list pyword) : forall i last pair acc,
    keeps oall_d (bigram_raw shared_backend i last pair l acc).
  Proof.
    assert (forall w idx acc, keeps oall_d (consider shared_backend w idx acc)) as Hc.
    { intros w idx [seen raw]. unfold consider. destruct (decide _); [apply keeps_pure|].
      apply keeps_mbind; [apply keeps_wdg|]. intros; apply keeps_pure. }
    induction l as [|x l IH]; intros; simpl; [apply keeps_pure|].
    apply keeps_mbind; [apply Hc|]. intros a1. apply keeps_mbind; [apply Hc|]. intros a2. apply IH.
  Qed.

  Lemma keeps_score (s : stream) : keeps oall_d (spamprob_evidence shared_backend it s).
  Proof.
    unfold spamprob_evidence. apply keeps_mbind; [|intros; apply keeps_pure].
    intros o Ho. unfold getclues. destruct (o_bigrams o) as [[|]|]; [..|done].
    - apply (keeps_mbind oall_d); [apply keeps_bigram_raw|intros; apply keeps_pure|done].
    - apply (keeps_mbind oall_d); [apply keeps_mmap, keeps_wdg|intros; apply keeps_pure|done].
  Qed.

  Lemma keeps_load : keeps oall_d shared_load.
  Proof.
    intros o Ho. unfold shared_load. apply (keeps_mbind oall_d); [apply keeps_on_store, keeps_access| |done].
    intros [|]; [|by intros [? ? ? ? [??]] [??]].
    apply keeps_mbind; [apply keeps_on_store, keeps_access|].
    intros [r|v s h] [? ? ? ? [st env]] Hs; [done|]. by destruct (v =? PICKLE_VERSION)%Z.
  Qed.

  Lemma run_reads (xs : list sop) : forall (o : pobj), Forall reads xs -> oall_d o ->
    oall_d (fst (run_shared it xs o)).
  Proof.
    induction xs as [|x xs IH]; intros o Hxs Ho; [done|]. apply Forall_cons in Hxs as [Hx Hxs].
    cbn [run_shared]. destruct (run_shared_op it x o) as [o1 r1] eqn:E.
    assert (oall_d o1) as Ho1.
    { destruct x as [[]| | |]; try done; cbn [run_shared_op run_call] in E.
      - pose proof (keeps_score s o Ho) as H. destruct (spamprob_evidence _ _ _ _). by injection E as <- _.
      - pose proof (keeps_load o Ho) as H. destruct (shared_load o). by injection E as <- _.
      - destruct (o_store o) as [st env] eqn:Es. unfold oall_d in Ho. rewrite Es in Ho.
        pose proof (keeps_load (c_new false (SStore (s_db st) ∅ ∅ ∅ (s_log st), env))) as H.
        destruct (shared_load _). injection E as <- _. by apply H. }
    destruct (unfinished r1); [done|]. specialize (IH o1 Hxs Ho1). by destruct (run_shared it xs o1).
  Qed.

  Definition o0 : sobj := c_new false (SStore d ∅ ∅ ∅ []).

  Lemma process_reads (xs : list sop) (seen : list database) : Forall reads xs -> Forall (eq d) seen -> seen <> [] ->
    oall_d (fst (process it xs seen)).
  Proof.
    intros Hxs Hs Hne. destruct seen as [|d1 seen]; [done|]. rewrite (process_start it xs d).
    apply run_reads; [by constructor|done].
  Qed.

  Lemma reads_prefix (xs : list sop) (seen : list database) : Forall reads xs -> Forall (eq d) seen ->
    snd (process it xs seen) `prefix_of`
      ODone (snd (shelve_open (A:=A) d)) :: snd (run_sops it xs (fst (shelve_open (A:=A) d))).
  Proof.
    intros Hxs Hs. destruct (solo_run it (SReopen :: xs) o0) as (env&Pn&R).
    assert (snd (run_sops it (SReopen :: xs) o0) =
      ODone (snd (shelve_open (A:=A) d)) :: snd (run_sops it xs (fst (shelve_open (A:=A) d)))) as Erun.
    { cbn [run_sops]. rewrite reopen_eq. unfold shelve_open. cbn [o_store c_new s_db s_log o0].
      destruct (shelve_load d _) as [o2 r2] eqn:E2. cbn [fst snd].
      by destruct (run_sops it xs o2). }
    rewrite <- Erun. clear Erun.
    assert (Forall (eq d) env) as He.
    { assert (forall n, Forall (eq d) (take n env)) as Hn.
      { induction n as [|n IH]; [rewrite take_0; by constructor|].
        destruct (env !! n) as [e|] eqn:E; [|rewrite take_ge in * by (apply lookup_ge_None in E; lia); done].
        rewrite (take_S_r env n e E). apply Forall_app. split; [done|]. constructor; [|done].
        destruct (Pn n e E) as (o1&rs&E1&Ed&_).
        pose proof (run_reads (SReopen :: xs) (oin o0 (take n env))) as H.
        rewrite E1 in H. destruct H as [H _]; [by constructor|done|]. rewrite <- Ed. symmetry. exact H. }
      specialize (Hn (length env)). by rewrite take_ge in Hn by lia. }
    destruct seen as [|d1 seen]; [apply prefix_nil|].
    rewrite (process_start it xs d). fold o0. set (sn := d1 :: seen) in *.
    assert (forall l1 l2 : list database, Forall (eq d) l1 -> Forall (eq d) l2 -> length l1 = length l2 -> l1 = l2) as Heq.
    { induction l1 as [|y l1 IH]; intros [|z l2] H1 H2 Hl; try done.
      apply Forall_cons in H1 as [<- H1], H2 as [<- H2]. f_equal. apply IH; [done|done|]. simpl in Hl. lia. }
    destruct (decide (length sn < length env)%nat) as [Hlt|Hge].
    - rewrite (Heq sn (take (length sn) env)); [|done|by apply Forall_take|rewrite take_length; lia].
      destruct (lookup_lt_is_Some_2 env (length sn) Hlt) as [e Ee].
      destruct (Pn _ e Ee) as (o1&rs&E1&_&_&Hp). rewrite E1. exact Hp.
    - rewrite (Heq sn (env ++ drop (length env) sn)).
      + rewrite R. done.
      + done.
      + apply Forall_app. split; [done|]. by apply Forall_drop.
      + rewrite app_length, drop_length. lia.
  Qed.

  Lemma readers (progs : list (list sop)) (schedule : list nat) : Forall (Forall reads) progs ->
    let w := together (A:=A) it d progs schedule in
    w_db w = d /\ forall i xs, progs !! i = Some xs ->
      outcomes (A:=A) it w i `prefix_of`
        ODone (snd (shelve_open (A:=A) d)) :: snd (run_sops it xs (fst (shelve_open (A:=A) d))).
  Proof.
    intros Hp. cbv zeta. unfold together.
    assert (forall w : world, w_db w = d -> Forall (fun p => Forall reads p.1 /\ Forall (eq d) p.2) (w_procs w) ->
      fst <$> w_procs w = progs ->
      let w' := foldl (step (A:=A) it) w schedule in
      w_db w' = d /\ Forall (fun p => Forall reads p.1 /\ Forall (eq d) p.2) (w_procs w') /\ fst <$> w_procs w' = progs) as H.
    { induction schedule as [|i l IH]; intros w Hd Hw Hf; [done|]. simpl. apply IH; unfold step;
        (destruct (w_procs w !! i) as [[xs seen]|] eqn:Ei; [|done]);
        pose proof (Forall_lookup_1 _ _ _ _ Hw Ei) as [Hx Hs]; cbn [fst snd] in Hx, Hs;
        assert (Forall (eq d) (seen ++ [w_db w])) as Hs' by (apply Forall_app; split; [done|by constructor]);
        pose proof (process_reads xs (seen ++ [w_db w]) Hx Hs' (fun E => app_cons_not_nil _ _ _ (eq_sym E))) as Hq;
        destruct (o_store _) as [st [|d1 env]] eqn:Eo; cbn [w_db w_procs]; try done.
      - unfold oall_d in Hq. rewrite Eo in Hq. apply Hq.
      - by apply Forall_insert.
      - rewrite list_fmap_insert. cbn [fst]. rewrite Hf. apply list_insert_id.
        by rewrite <- Hf, list_lookup_fmap, Ei. }
    destruct (H (World d ((fun xs => (xs, [])) <$> progs))) as (H1&H2&H3).
    - done.
    - apply Forall_fmap. eapply Forall_impl; [exact Hp|]. intros xs Hx. cbn. done.
    - cbn [w_procs]. rewrite <- list_fmap_compose. apply list_fmap_id.
    - split; [done|]. intros i xs Hi. unfold outcomes. rewrite <- H3, list_lookup_fmap in Hi.
      destruct (w_procs _ !! i) as [[ys seen]|] eqn:Ei; [|done]. injection Hi as ->.
      pose proof (Forall_lookup_1 _ _ _ _ H2 Ei) as [Hx Hs]. by apply reads_prefix.
  Qed.
End readers.
