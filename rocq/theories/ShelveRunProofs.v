(** * Store, load and histories of the database-backed classifier *)
From Coq Require Import String Lia.
From Verif Require Import Py NumModel ClassifierModel TrainSpec TrainProofs ScoreProofs
  ShelveModel ShelveSpec ShelveProofs.

(** ** store() *)
Definition same_mem (st st' : sstore) : Prop :=
  s_mem st' = s_mem st /\ s_changed st' = s_changed st /\ s_deleted st' = s_deleted st.

Definition put_write (st : sstore) (x : dbwrite) : Prop :=
  exists k r, x = DPut k (DWord r) /\ plain (WStr k) /\ s_mem st !! WStr k = Some r.

Definition del_write (x : dbwrite) : Prop := exists k, x = DDel k /\ plain (WStr k).

Lemma store_changed_loop l : NoDup l -> forall st, sinv st -> Forall (fun w => w ∈ s_changed st) l ->
  exists st' ws, mfor l store_changed st = (st', Ok tt) /\ same_mem st st' /\
    (forall s, s_db st' !! s = if bool_decide (WStr s ∈ l) then DWord <$> s_mem st !! WStr s
                               else s_db st !! s) /\
    wf_db (s_db st') /\ writes st st' ws /\ Forall (put_write st) ws.
Proof.
  induction 1 as [|x l Hx Hnd IH]; intros st H Hl; cbn [mfor].
  - exists st, []. split_and!; try done; [apply H|by apply writes_nil].
  - apply Forall_cons in Hl as [Hc Hl].
    destruct (i_changed st H x Hc) as (r&Em&Ht). destruct (i_mem st H x r Em) as [Hp Hr].
    destruct (plain_key x Hp) as (s&->&Hk&Hs).
    unfold mbind, store_changed at 1. rewrite Em, Hk. cbn [db_write].
    set (st1 := SStore (db_apply (s_db st) (DPut s (DWord r))) (s_mem st) (s_changed st)
                       (s_deleted st) (s_log st ++ [DPut s (DWord r)])).
    assert (sinv st1) as H1.
    { destruct H as [H1 H2 H3 H4 H5]. constructor; simpl; try done.
      - by apply wf_db_put.
      - intros s' r' E Hn. destruct (decide (s' = s)) as [->|Hne].
        + rewrite lookup_insert. congruence.
        + rewrite lookup_insert_ne by done. by apply H3. }
    destruct (IH st1 H1 Hl) as (st2&ws&E2&(M2&C2&D2)&L2&W2&R2&P2).
    exists st2, (DPut s (DWord r) :: ws). split; [done|]. split; [done|].
    split; [|split; [done|split]].
    + intros s'. rewrite L2. simpl. destruct (decide (s' = s)) as [->|Hne].
      * rewrite bool_decide_eq_false_2 by done. rewrite bool_decide_eq_true_2 by left.
        by rewrite lookup_insert, Em.
      * rewrite lookup_insert_ne by done. destruct (decide (WStr s' ∈ l)).
        -- by rewrite !bool_decide_eq_true_2 by (try right; done).
        -- rewrite !bool_decide_eq_false_2; [done| |done]. rewrite elem_of_cons. naive_solver.
    + destruct R2 as [R1 R2]. split.
      * rewrite R1. simpl. by rewrite <- app_assoc.
      * by rewrite R2.
    + constructor; [by exists s, r|]. exact P2.
Qed.

Lemma store_deleted_loop l : NoDup l -> forall st, sinv st -> Forall (fun w => w ∈ s_deleted st) l ->
  exists st' ws, mfor l store_deleted st = (st', Ok tt) /\ same_mem st st' /\
    (forall s, s_db st' !! s = if bool_decide (WStr s ∈ l) then None else s_db st !! s) /\
    wf_db (s_db st') /\ writes st st' ws /\ Forall del_write ws.
Proof.
  induction 1 as [|x l Hx Hnd IH]; intros st H Hl; cbn [mfor].
  - exists st, []. split_and!; try done; [apply H|by apply writes_nil].
  - apply Forall_cons in Hl as [Hc Hl].
    destruct (i_deleted st H x Hc) as (Hp&Em).
    destruct (plain_key x Hp) as (s&->&Hk&Hs).
    unfold mbind, store_deleted at 1. rewrite Em, Hk. cbn [db_write].
    destruct (s_db st !! s) as [v|] eqn:Ed.
    2:{ destruct (IH st H Hl) as (st2&ws&E2&M2&L2&W2&R2&P2).
        exists st2, ws. split; [done|]. split; [done|]. split; [|done].
        intros s'. rewrite L2. destruct (decide (s' = s)) as [->|Hne].
        - rewrite (bool_decide_eq_true_2 (WStr s ∈ _ :: _)) by left. rewrite Ed.
          by destruct (bool_decide _).
        - destruct (decide (WStr s' ∈ l)).
          + by rewrite !bool_decide_eq_true_2 by (try right; done).
          + rewrite !bool_decide_eq_false_2; [done| |done]. rewrite elem_of_cons. naive_solver. }
    set (st1 := SStore (db_apply (s_db st) (DDel s)) (s_mem st) (s_changed st)
                       (s_deleted st) (s_log st ++ [DDel s])).
    assert (sinv st1) as H1.
    { destruct H as [H1 H2 H3 H4 H5]. constructor; simpl; try done.
      - by apply wf_db_del.
      - intros s' r' E Hn. destruct (decide (s' = s)) as [->|Hne]; [congruence|].
        rewrite lookup_delete_ne by done. by apply H3. }
    destruct (IH st1 H1 Hl) as (st2&ws&E2&(M2&C2&D2)&L2&W2&R2&P2).
    exists st2, (DDel s :: ws). split; [done|]. split; [done|].
    split; [|split; [done|split]].
    + intros s'. rewrite L2. simpl. destruct (decide (s' = s)) as [->|Hne].
      * rewrite (bool_decide_eq_true_2 (WStr s ∈ _ :: _)) by left.
        rewrite lookup_delete. by destruct (bool_decide _).
      * rewrite lookup_delete_ne by done. destruct (decide (WStr s' ∈ l)).
        -- by rewrite !bool_decide_eq_true_2 by (try right; done).
        -- rewrite !bool_decide_eq_false_2; [done| |done]. rewrite elem_of_cons. naive_solver.
    + destruct R2 as [R1 R2]. split.
      * rewrite R1. simpl. by rewrite <- app_assoc.
      * by rewrite R2.
    + constructor; [by exists s|]. exact P2.
Qed.

Lemma look_not_plain st w : sinv st -> ~ plain w -> look st w = None.
Proof.
  intros H Hp. unfold look. destruct (s_mem st !! w) as [r|] eqn:Em.
  - apply (i_mem st H) in Em as [? _]. done.
  - destruct (decide _); [done|]. destruct w as [s| |]; try done.
    destruct (s_db st !! s) as [[r|]|] eqn:Ed; try done.
    by apply (d_rec _ (i_db st H)) in Ed as [_ ?].
Qed.

(** A plain look at the database. *)
Definition look_db (d : database) (w : pyword) : option winfo :=
  match w with
  | WStr s => match d !! s with Some (DWord r) => Some r | _ => None end
  | _ => None
  end.

Lemma look_fresh d log w : look (SStore d ∅ ∅ ∅ log) w = look_db d w.
Proof.
  unfold look. simpl. rewrite lookup_empty. rewrite decide_False by set_solver. done.
Qed.

Lemma look_saved st w : sinv st -> s_changed st = ∅ -> s_deleted st = ∅ ->
  look st w = look_db (s_db st) w.
Proof.
  intros H Hc Hd. unfold look. destruct (s_mem st !! w) as [r|] eqn:Em.
  - destruct (i_mem st H w r Em) as [Hp _]. destruct Hp as (s&->&_). simpl.
    by rewrite (i_clean st H s r Em) by (rewrite Hc; set_solver).
  - rewrite decide_False by (rewrite Hd; set_solver). done.
Qed.

Section ops.
  Context {A : num} (it : set_order) (Hit : set_order_ok it).
  Notation sobj := (obj A sstore).

  Definition saved (o : sobj) : Prop := s_changed (o_store o) = ∅ /\ s_deleted (o_store o) = ∅.

  Lemma set_elements (X : gset pyword) w : w ∈ it (elements X) <-> w ∈ X.
  Proof. rewrite (proj2 (Hit _)). apply elem_of_elements. Qed.

  Lemma store_spec (o : sobj) : oinv o -> exists st' ws1 ws2,
    shelve_store it o = (with_store o st', Ok tt) /\
    oinv (with_store o st') /\ saved (with_store o st') /\
    s_mem st' = s_mem (o_store o) /\
    s_db st' !! STATE_KEY = Some (DState PICKLE_VERSION (o_nspam o) (o_nham o)) /\
    (forall w, look st' w = look (o_store o) w) /\
    writes (o_store o) st'
      (ws1 ++ ws2 ++ [DPut STATE_KEY (DState PICKLE_VERSION (o_nspam o) (o_nham o))]) /\
    Forall (put_write (o_store o)) ws1 /\ Forall del_write ws2.
  Proof.
    intros Ho. pose proof (o_sinv o Ho) as H. set (st := o_store o) in *.
    destruct (store_changed_loop (it (elements (s_changed st))) (proj1 (Hit _)) st H)
      as (st1&ws1&E1&(M1&C1&D1)&L1&F1&W1&P1).
    { apply Forall_forall. intros w Hw. by apply set_elements. }
    assert (sinv st1) as H1.
    { destruct H as [I1 I2 I3 I4 I5]. constructor; rewrite ?M1, ?C1, ?D1; try done.
      intros s r Em Hn. rewrite L1. rewrite bool_decide_eq_false_2 by (by rewrite set_elements).
      by apply I3. }
    destruct (store_deleted_loop (it (elements (s_deleted st1))) (proj1 (Hit _)) st1 H1)
      as (st2&ws2&E2&(M2&C2&D2)&L2&F2&W2&P2).
    { apply Forall_forall. intros w Hw. by apply set_elements. }
    set (st3 := SStore (s_db st2) (s_mem st2) ∅ ∅ (s_log st2)).
    assert (forall s r, s_mem st !! WStr s = Some r -> s_db st2 !! s = Some (DWord r)) as Hdb.
    { intros s r Em. rewrite L2. rewrite bool_decide_eq_false_2.
      - rewrite L1. destruct (decide (WStr s ∈ s_changed st)) as [Hc|Hc].
        + rewrite bool_decide_eq_true_2 by (by apply set_elements). by rewrite Em.
        + rewrite bool_decide_eq_false_2 by (by rewrite set_elements). by apply (i_clean st H).
      - rewrite set_elements, D1. intros Hd. apply (i_deleted st H) in Hd as [_ Hd]. congruence. }
    assert (sinv st3) as H3.
    { constructor; simpl; try done.
      - rewrite M2, M1. apply H.
      - rewrite M2, M1. eauto. }
    assert (forall w, look st3 w = look st w) as Hlook.
    { intros w. unfold look. simpl. rewrite M2, M1. destruct (s_mem st !! w) as [r|] eqn:Em; [done|].
      rewrite decide_False by set_solver. destruct w as [s| |]; [|by destruct (decide _)..].
      rewrite L2. destruct (decide (WStr s ∈ s_deleted st)) as [Hd|Hd].
      - by rewrite bool_decide_eq_true_2 by (rewrite set_elements, D1; done).
      - rewrite bool_decide_eq_false_2 by (rewrite set_elements, D1; done). rewrite L1.
        rewrite bool_decide_eq_false_2; [done|]. rewrite set_elements. intros Hc.
        apply (i_changed st H) in Hc as (?&?&_). congruence. }
    exists (fst (write_state_key (o_nspam o) (o_nham o) st3)), ws1, ws2.
    assert (shelve_store it o =
      (with_store o (fst (write_state_key (o_nspam o) (o_nham o) st3)), Ok tt)) as Estore.
    { unfold shelve_store, on_store, mbind. fold st. rewrite E1, E2. done. }
    split; [exact Estore|]. pose proof (o_nn o Ho) as [N1 N2].
    split; [|split; [|split; [|split; [|split; [|split; [|split]]]]]].
    - constructor; cbn [o_store with_store o_nspam o_nham o_bigrams]; try done.
      + by apply state_write_inv.
      + apply Ho.
      + apply Ho.
      + apply db_totals_state.
    - done.
    - simpl. by rewrite M2, M1.
    - simpl. by rewrite lookup_insert.
    - intros w. rewrite state_write_look by apply H3. apply Hlook.
    - eapply writes_trans; [exact W1|]. eapply writes_trans; [exact W2|]. done.
    - done.
    - done.
  Qed.

  (** ** load() and opening *)
  Lemma load_spec (o : sobj) d : wf_db d ->
    shelve_load d o =
      (Obj (o_bigrams o) (db_totals d).1 (db_totals d).2 (o_cache o)
           (SStore d ∅ ∅ ∅ (s_log (o_store o))), Ok tt).
  Proof.
    intros Hd. unfold shelve_load, db_totals.
    destruct (d !! STATE_KEY) as [[r|v s h]|] eqn:E.
    - apply (d_rec _ Hd) in E as [_ E]. by apply state_not_plain in E.
    - apply (d_state _ Hd) in E as (_&->&_). done.
    - done.
  Qed.

  Lemma open_refuses d x : d !! str "saved state" = Some x -> (forall s h, x <> DState 5 s h) ->
    snd (shelve_open (A:=A) d) = Err ValueError /\ s_db (o_store (fst (shelve_open (A:=A) d))) = d.
  Proof.
    intros E Hx. unfold shelve_open, shelve_load. change STATE_KEY with (str "saved state"). rewrite E.
    destruct x as [r|v s h]; [done|]. destruct (Z.eqb_spec v PICKLE_VERSION) as [->|Hv]; [|done].
    exfalso. by apply (Hx s h).
  Qed.

  Lemma wf_db_totals d : wf_db d -> (0 <= (db_totals d).1)%Z /\ (0 <= (db_totals d).2)%Z.
  Proof.
    intros Hd. unfold db_totals. destruct (d !! STATE_KEY) as [[r|v s h]|] eqn:E; try done.
    by apply (d_state _ Hd) in E as (_&_&?).
  Qed.

  Lemma fresh_sinv d log : wf_db d -> sinv (SStore d ∅ ∅ ∅ log).
  Proof. intros Hd. constructor; simpl; try done; set_solver. Qed.

  Lemma open_spec d : wf_db d ->
    shelve_open (A:=A) d =
      (Obj (Some false) (db_totals d).1 (db_totals d).2 ∅ (SStore d ∅ ∅ ∅ []), Ok tt) /\
    oinv (fst (shelve_open (A:=A) d)).
  Proof.
    intros Hd. unfold shelve_open. rewrite load_spec by done. split; [done|]. simpl.
    constructor; simpl; try done; [by destruct (db_totals d)|by apply wf_db_totals].
  Qed.

  (** ** One operation *)
  Definition ok_write (x : dbwrite) : Prop :=
    match x with
    | DPut k (DWord r) => wf_record r /\ plain (WStr k)
    | DPut k (DState v s h) => k = STATE_KEY /\ v = PICKLE_VERSION /\ (0 <= s)%Z /\ (0 <= h)%Z
    | DDel _ => True
    end.

  Lemma ok_write_wf d x : wf_db d -> ok_write x -> wf_db (db_apply d x).
  Proof.
    intros Hd. destruct x as [k [r|v s h]|k]; simpl.
    - intros [??]. by apply wf_db_put.
    - intros (->&->&?&?). by apply wf_db_state.
    - intros _. by apply wf_db_del.
  Qed.

  Lemma ok_writes_wf ws : Forall ok_write ws -> forall d n, wf_db d -> wf_db (replay d (take n ws)).
  Proof.
    induction 1 as [|x ws Hx _ IH]; intros d n Hd.
    - by rewrite take_nil.
    - destruct n as [|n]; [done|]. simpl. apply IH. by apply ok_write_wf.
  Qed.

  Lemma small_ok Q ws : Forall (small_write Q) ws -> Forall ok_write ws.
  Proof. intros H. eapply Forall_impl; [exact H|]. intros x (k&r&->&?&?&_). done. Qed.

  Lemma plain_elems x s : plain_op x -> mentions x = elems s -> Forall plain (elems s).
  Proof. intros H E. apply Forall_forall. rewrite <- E. exact H. Qed.

  Lemma run_sop_inv x (o : sobj) : oinv o -> plain_op x -> exists ws,
    oinv (fst (run_sop it x o)) /\
    writes (o_store o) (o_store (fst (run_sop it x o))) ws /\ Forall ok_write ws.
  Proof.
    intros Ho Hx. destruct x as [c| | |].
    - destruct c as [s b|s b|s]; pose proof (plain_elems _ s Hx eq_refl) as Hs; simpl.
      + destruct (learn_spec it Hit o s b Ho Hs) as (st'&log&E&I&_&W&S1). rewrite E. simpl.
        eexists. split; [exact I|]. split; [exact W|].
        apply Forall_app. split; [by eapply small_ok|].
        constructor; [|done]. destruct (o_nn _ I). done.
      + destruct (Z.leb_spec (if b then o_nspam o else o_nham o) 0) as [Hz|Hpos].
        * rewrite unlearn_zero by done. exists []. split; [by apply clear_cache_oinv|].
          split; [by apply writes_nil|done].
        * destruct (unlearn_spec it Hit o s b Ho Hs Hpos) as (st'&log&E&I&_&W&S1). rewrite E. simpl.
          eexists. split; [exact I|]. split; [exact W|].
          apply Forall_app. split; [by eapply small_ok|].
          constructor; [|done]. destruct (o_nn _ I). done.
      + destruct (score_spec it Hit o s Ho Hs) as (o'&E&I&_&_&_&W). rewrite E. simpl.
        by exists [].
    - simpl. destruct (store_spec o Ho) as (st'&ws1&ws2&E&I&_&_&_&_&W&P1&P2). rewrite E. simpl.
      eexists. split; [exact I|]. split; [exact W|].
      rewrite !Forall_app. split_and!.
      + eapply Forall_impl; [exact P1|]. intros x (k&r&->&Hp&Em).
        simpl. split; [|done]. by apply (i_mem _ (o_sinv o Ho)) in Em as [_ ?].
      + eapply Forall_impl; [exact P2|]. by intros x (k&->&_).
      + constructor; [|done]. destruct (o_nn _ Ho). done.
    - simpl. pose proof (i_db _ (o_sinv o Ho)) as Hd. rewrite load_spec by done. simpl.
      exists []. split; [|split; [by apply writes_nil|done]].
      constructor; simpl.
      + by apply fresh_sinv.
      + pose proof (o_cok o Ho) as Hc. unfold cache_ok in *. simpl.
        rewrite (o_tot o Ho). exact Hc.
      + apply Ho.
      + by destruct (db_totals _).
      + by apply wf_db_totals.
    - simpl. pose proof (i_db _ (o_sinv o Ho)) as Hd.
      destruct (open_spec _ Hd) as [E I]. rewrite E in I. rewrite E. simpl in *.
      exists []. split; [|split; [apply writes_nil; simpl; by rewrite ?app_nil_r|done]].
      destruct I as [I1 I2 I3 I4 I5]. constructor; try done.
  Qed.

  Lemma run_sops_app xs ys (o : sobj) :
    fst (run_sops it (xs ++ ys) o) = fst (run_sops it ys (fst (run_sops it xs o))).
  Proof.
    revert o. induction xs as [|x xs IH]; intros o; [done|]. simpl.
    destruct (run_sop it x o) as [o1 r1]. specialize (IH o1).
    destruct (run_sops it (xs ++ ys) o1) as [o2 r2].
    destruct (run_sops it xs o1) as [o3 r3]. simpl in *. done.
  Qed.

  Lemma run_sops_inv xs : forall (o : sobj), oinv o -> Forall plain_op xs -> exists ws,
    oinv (fst (run_sops it xs o)) /\
    writes (o_store o) (o_store (fst (run_sops it xs o))) ws /\ Forall ok_write ws.
  Proof.
    induction xs as [|x xs IH]; intros o Ho Hxs.
    - exists []. simpl. split_and!; [done|by apply writes_nil|done].
    - apply Forall_cons in Hxs as [Hx Hxs]. destruct (run_sop_inv x o Ho Hx) as (ws1&I1&W1&O1).
      simpl. destruct (run_sop it x o) as [o1 r1]. simpl in *.
      destruct (IH o1 I1 Hxs) as (ws2&I2&W2&O2).
      destruct (run_sops it xs o1) as [o2 r2]. simpl in *.
      exists (ws1 ++ ws2). split_and!; [done|by eapply writes_trans|by apply Forall_app].
  Qed.
End ops.

Lemma left_behind_wf A (P : sop -> Prop) d : (forall x, P x -> plain_op x) -> left_behind A P d -> wf_db d.
Proof.
  intros HP. induction 1 as [|d it xs n _ IH Hit Hxs]; [apply wf_db_empty|].
  destruct (open_spec (A:=A) d IH) as [E I].
  destruct (run_sops_inv it Hit xs _ I) as (ws&_&[L _]&O).
  { eapply Forall_impl; [exact Hxs|done]. }
  rewrite L, E. simpl. by apply ok_writes_wf.
Qed.

(** ** Simulation by the in-memory classifier (C23) *)
Section simulation.
  Context {A : num} (it : set_order) (Hit : set_order_ok it).
  Notation sobj := (obj A sstore).
  Notation mobj := (obj A mstore).

  Record sim (o : sobj) (m : mobj) : Prop := {
    sim_inv : oinv o;
    sim_good : mgood m;
    sim_bg : o_bigrams m = Some false;
    sim_ns : o_nspam m = o_nspam o;
    sim_nh : o_nham m = o_nham o;
    sim_look : forall w, look (o_store o) w = o_store m !! w
  }.

  Lemma sim_call c o m : sim o m -> plain_op (SCall c) ->
    sim (fst (run_call shelve_backend it c o)) (fst (run_call mem_backend it c m)) /\
    snd (run_call shelve_backend it c o) = snd (run_call mem_backend it c m).
  Proof.
    intros [I G B Ns Nh L] Hp.
    destruct c as [s b|s b|s]; pose proof (plain_elems _ s Hp eq_refl) as Hs; simpl.
    - destruct (learn_spec it Hit o s b I Hs) as (st'&log&E&I'&L'&_&_). rewrite E.
      destruct (learn_mem it Hit s b false m B) as (m'&->&Lm). simpl. split; [|done].
      constructor; simpl; try done.
      + by rewrite Ns.
      + by rewrite Nh.
      + intros w. rewrite L', Lm, L. done.
    - destruct (Z.leb_spec (if b then o_nspam o else o_nham o) 0) as [Hz|Hpos].
      + rewrite unlearn_zero by done.
        rewrite (unlearn_mem_zero it s b false m B) by (rewrite Ns, Nh; done).
        simpl. split; [|done]. constructor; simpl; try done. by apply clear_cache_oinv.
      + destruct (unlearn_spec it Hit o s b I Hs Hpos) as (st'&log&E&I'&L'&_&_). rewrite E.
        destruct (unlearn_mem_pos it Hit s b false m B) as (m'&->&Lm).
        { rewrite Ns, Nh. done. }
        simpl. split; [|done]. constructor; simpl; try done.
        * by rewrite Ns.
        * by rewrite Nh.
        * intros w. rewrite L', Lm, L. done.
    - destruct (score_spec it Hit o s I Hs) as (o'&->&I'&Ns'&Nh'&L'&_).
      destruct (mem_score it s m G) as (m'&->&G'&(T1&T2&T3&T4)). simpl. split.
      + constructor; try done; try congruence.
      + rewrite B, Ns, Nh. f_equal. unfold pscore_evidence.
        by rewrite (pclues_ext it (look (o_store o)) (mlook (o_store m))).
  Qed.

  Lemma saved_score c (o : sobj) : oinv o -> plain_op (SCall c) ->
    (exists s, c = CScore s) -> saved o -> saved (fst (run_call shelve_backend it c o)).
  Proof.
    intros I Hp [s ->] [S1 S2]. pose proof (plain_elems _ s Hp eq_refl) as Hs. simpl.
    set (Inv := fun st => sinv st /\ s_changed st = ∅ /\ s_deleted st = ∅).
    destruct (spamprob_evidence_computes (A:=A) shelve_backend it Inv look plain) with (s := s) (o := o)
      as (o'&E&[L1 L2 L3 L4 L5 L6]).
    - intros st w (H1&H2&H3) Hw. destruct (get_spec st w H1 Hw) as (st1&E1&I1&L1&M1&D1&G1&C1&X1).
      exists st1. split; [done|]. split; [|done]. split; [done|]. split; congruence.
    - split; [|apply I]. split; [apply I|done].
    - rewrite (o_bg o I). simpl. by apply it_plain.
    - rewrite E. simpl. by destruct L1 as (_&?&?).
  Qed.

  Lemma sim_sops xs : forall o m dirty, sim o m -> (dirty = false -> saved o) ->
    Forall plain_op xs -> tidy dirty xs ->
    sim (fst (run_sops it xs o)) (fst (run mem_backend it (calls_of xs) m)) /\
    outcomes_match xs (snd (run_sops it xs o)) (snd (run mem_backend it (calls_of xs) m)).
  Proof.
    induction xs as [|x xs IH]; intros o m dirty S0 Hd Hxs Ht; [done|].
    apply Forall_cons in Hxs as [Hx Hxs].
    destruct x as [c| | |].
    - destruct (sim_call c o m S0 Hx) as [S1 E1].
      assert (exists dirty', tidy dirty' xs /\
                (dirty' = false -> saved (fst (run_call shelve_backend it c o)))) as (dirty'&Ht'&Hd').
      { destruct c as [s b|s b|s]; simpl in Ht; [exists true; by split..|].
        exists dirty. split; [done|]. intros Hf. eapply saved_score; eauto. apply S0. }
      cbn [run_sops calls_of run run_sop].
      destruct (run_call shelve_backend it c o) as [o1 r1].
      destruct (run_call mem_backend it c m) as [m1 q1]. simpl in *.
      destruct (IH o1 m1 dirty' S1 Hd' Hxs Ht') as [S2 E2].
      destruct (run_sops it xs o1) as [o2 rs]. destruct (run mem_backend it (calls_of xs) m1) as [m2 qs].
      simpl in *. done.
    - simpl in Ht. cbn [run_sops calls_of run_sop].
      destruct (store_spec it Hit o (sim_inv _ _ S0)) as (st'&ws1&ws2&E&I&Sv&_&_&L&_). rewrite E.
      destruct (IH (with_store o st') m false) as [S2 E2]; try done.
      { destruct S0. constructor; try done. simpl. intros w. by rewrite L. }
      destruct (run_sops it xs _) as [o2 rs]. simpl in *. done.
    - simpl in Ht. destruct Ht as [-> Ht]. cbn [run_sops calls_of].
      pose proof (i_db _ (o_sinv o (sim_inv _ _ S0))) as Hwf.
      pose proof (run_sop_inv it Hit SLoad o (sim_inv _ _ S0) Hx) as (_&I1&_&_).
      destruct (Hd eq_refl) as [Sv1 Sv2].
      cbn [run_sop] in *. rewrite load_spec in * by done. cbn [fst] in I1.
      match goal with |- context[run_sops it xs ?o1] => destruct (IH o1 m false) as [S2 E2] end; try done.
      { pose proof (o_tot o (sim_inv _ _ S0)) as Et. destruct S0 as [I G B Ns Nh L].
        constructor; try done; simpl.
        - by rewrite Et. - by rewrite Et.
        - intros w. rewrite look_fresh, <- look_saved by (try apply I; done). apply L. }
      destruct (run_sops it xs _) as [o2 rs]. simpl in *. done.
    - simpl in Ht. destruct Ht as [-> Ht]. cbn [run_sops calls_of].
      pose proof (i_db _ (o_sinv o (sim_inv _ _ S0))) as Hwf.
      pose proof (run_sop_inv it Hit SReopen o (sim_inv _ _ S0) Hx) as (_&I1&_&_).
      destruct (Hd eq_refl) as [Sv1 Sv2].
      destruct (open_spec (A:=A) _ Hwf) as [E _].
      cbn [run_sop] in *. rewrite E in *. cbn [fst] in I1.
      match goal with |- context[run_sops it xs ?o1] => destruct (IH o1 m false) as [S2 E2] end; try done.
      { pose proof (o_tot o (sim_inv _ _ S0)) as Et. destruct S0 as [I G B Ns Nh L].
        constructor; try done; simpl.
        - by rewrite Et. - by rewrite Et.
        - intros w. rewrite look_fresh, <- look_saved by (try apply I; done). apply L. }
      destruct (run_sops it xs _) as [o2 rs]. simpl in *. done.
  Qed.

  Lemma open_empty_sim : sim (fst (shelve_open (A:=A) ∅)) (c_new false ∅ : mobj).
  Proof.
    destruct (open_spec (A:=A) ∅ wf_db_empty) as [E I]. constructor; try done.
    intros w. rewrite E. simpl. rewrite look_fresh. unfold look_db. by destruct w.
  Qed.

  Lemma recorded_look (o : sobj) w : oinv o -> plain w -> recorded o w = Ok (look (o_store o) w).
  Proof.
    intros I Hw. destruct (get_spec (o_store o) w (o_sinv o I) Hw) as (st'&E&_).
    unfold recorded. by rewrite E.
  Qed.

  Lemma shelve_refines_memory xs : Forall plain_op xs -> tidy false xs ->
    let '(o, rs) := run_sops it xs (fst (shelve_open (A:=A) ∅)) in
    let '(m, qs) := run mem_backend it (calls_of xs) (c_new false ∅ : mobj) in
    outcomes_match xs rs qs /\ o_nspam o = o_nspam m /\ o_nham o = o_nham m /\
    forall w, plain w -> recorded o w = Ok (o_store m !! w).
  Proof.
    intros Hxs Ht.
    destruct (sim_sops xs _ _ false open_empty_sim) as [S1 E1]; try done.
    destruct (run_sops it xs _) as [o rs]. destruct (run mem_backend it _ _) as [m qs]. simpl in *.
    split_and!; [done|symmetry; apply S1..|].
    intros w Hw. rewrite recorded_look by (first [exact (sim_inv _ _ S1) | done]). by rewrite (sim_look _ _ S1).
  Qed.

  (** C24 *)
  Lemma store_loses_nothing (P : sop -> Prop) d xs : (forall x, P x -> plain_op x) -> left_behind A P d ->
    Forall plain_op xs ->
    let o := fst (run_sops it xs (fst (shelve_open (A:=A) d))) in
    exists (o1 o2 : sobj), shelve_store it o = (o1, Ok tt) /\
      shelve_open (s_db (o_store o1)) = (o2, Ok tt) /\
      o_nspam o2 = o_nspam o /\ o_nham o2 = o_nham o /\
      o_nspam o1 = o_nspam o /\ o_nham o1 = o_nham o /\
      (forall w, plain w -> recorded o2 w = recorded o w /\ recorded o1 w = recorded o w) /\
      exists o3, shelve_store it o1 = (o3, Ok tt) /\
        o3 = with_store o1 (SStore (s_db (o_store o1)) (s_mem (o_store o1)) (s_changed (o_store o1))
                              (s_deleted (o_store o1)) (s_log (o_store o3))).
  Proof.
    intros HP Hl Hxs o. pose proof (left_behind_wf A P d HP Hl) as Hd.
    destruct (open_spec (A:=A) d Hd) as [_ I0].
    destruct (run_sops_inv it Hit xs _ I0 Hxs) as (_&I&_). fold o in I.
    destruct (store_spec it Hit o I) as (st1&ws1&ws2&E1&I1&Sv&_&Kst&L1&_&_&_).
    pose proof (i_db _ (o_sinv _ I1)) as Hd1.
    destruct (open_spec (A:=A) _ Hd1) as [E2 I2].
    exists (with_store o st1). eexists. split; [done|]. split; [exact E2|].
    rewrite E2 in I2. simpl in I2.
    pose proof (o_tot _ I1) as Et. split_and!; simpl.
    - simpl in Et. by rewrite Et.
    - simpl in Et. by rewrite Et.
    - done.
    - done.
    - intros w Hw. rewrite !recorded_look by done. simpl. rewrite L1. split; [|done].
      rewrite look_fresh, <- L1. symmetry. f_equal. apply look_saved; [apply I1|apply Sv..].
    - destruct Sv as [C1 D1]. simpl in C1, D1.
      assert (it [] = []) as Hnil.
      { destruct (it []) as [|x l] eqn:Ei; [done|]. exfalso.
        assert (x ∈ it []) as Hx by (rewrite Ei; left). apply (proj2 (Hit [])) in Hx. by apply elem_of_nil in Hx. }
      eexists. split.
      { unfold shelve_store, on_store, mbind. simpl. rewrite C1, elements_empty, Hnil. simpl.
        rewrite D1, elements_empty, Hnil. simpl. reflexivity. }
      simpl. rewrite C1, D1. f_equal. f_equal.
      rewrite insert_id; [done|]. exact Kst.
  Qed.
End simulation.
