(** * Lemmas about the database-backed classifier *)
From Coq Require Import String Lia.
From Verif Require Import Py NumModel ClassifierModel TrainSpec TrainProofs ScoreProofs
  ShelveModel ShelveSpec.

Lemma plain_key w : plain w -> exists s, w = WStr s /\ shelf_key w = Ok s /\ s <> STATE_KEY.
Proof.
  intros (s&->&Hs&Hk). exists s. split_and!; [done| |exact Hk].
  simpl. destruct (existsb is_surrogate s) eqn:E; [|done].
  apply existsb_exists in E as (c&Hc&E). apply elem_of_list_In in Hc.
  rewrite Forall_forall in Hs. specialize (Hs c Hc).
  unfold is_surrogate in E. apply andb_true_iff in E as [E1 E2].
  apply N.leb_le in E1, E2. exfalso. apply Hs. lia.
Qed.

Definition wtotal (r : winfo) : Z := spamcount r + hamcount r.

(** The record of a word, as a function of the store. *)
Definition look (st : sstore) (w : pyword) : option winfo :=
  match s_mem st !! w with
  | Some r => Some r
  | None =>
      if decide (w ∈ s_deleted st) then None
      else match w with
           | WStr s => match s_db st !! s with Some (DWord r) => Some r | _ => None end
           | _ => None
           end
  end.

(** Well-formed database contents. *)
Record wf_db (d : database) : Prop := {
  d_rec : forall k r, d !! k = Some (DWord r) -> wf_record r /\ plain (WStr k);
  d_state : forall k v s h, d !! k = Some (DState v s h) ->
              k = STATE_KEY /\ v = PICKLE_VERSION /\ (0 <= s)%Z /\ (0 <= h)%Z
}.

(** The totals a database stands for. *)
Definition db_totals (d : database) : Z * Z :=
  match d !! STATE_KEY with Some (DState _ s h) => (s, h) | _ => (0, 0)%Z end.

Record sinv (st : sstore) : Prop := {
  i_db : wf_db (s_db st);
  i_mem : forall w r, s_mem st !! w = Some r -> plain w /\ wf_record r;
  i_clean : forall s r, s_mem st !! WStr s = Some r -> WStr s ∉ s_changed st ->
              s_db st !! s = Some (DWord r);
  i_changed : forall w, w ∈ s_changed st -> exists r, s_mem st !! w = Some r /\ (2 <= wtotal r)%Z;
  i_deleted : forall w, w ∈ s_deleted st -> plain w /\ s_mem st !! w = None
}.

Lemma state_not_plain : ~ plain (WStr STATE_KEY).
Proof. intros (s&[= <-]&_&H). by apply H. Qed.

Lemma wf_db_empty : wf_db ∅.
Proof. split; intros *; by rewrite lookup_empty. Qed.

Lemma wf_db_put d k r : wf_db d -> wf_record r -> plain (WStr k) -> wf_db (<[k := DWord r]> d).
Proof.
  intros [H1 H2] Hr Hk. split; intros k' *; destruct (decide (k' = k)) as [->|Hne].
  - rewrite lookup_insert. by intros [= <-].
  - rewrite lookup_insert_ne by done. apply H1.
  - by rewrite lookup_insert.
  - rewrite lookup_insert_ne by done. apply H2.
Qed.

Lemma wf_db_del d k : wf_db d -> wf_db (delete k d).
Proof.
  intros [H1 H2]. split; intros k' *; rewrite lookup_delete_Some; intros [_ H]; eauto.
Qed.

Lemma wf_db_state d s h : wf_db d -> (0 <= s)%Z -> (0 <= h)%Z ->
  wf_db (<[STATE_KEY := DState PICKLE_VERSION s h]> d).
Proof.
  intros [H1 H2] Hs Hh. split; intros k' *; destruct (decide (k' = STATE_KEY)) as [->|Hne].
  - by rewrite lookup_insert.
  - rewrite lookup_insert_ne by done. apply H1.
  - rewrite lookup_insert. intros [= <- <- <-]. done.
  - rewrite lookup_insert_ne by done. apply H2.
Qed.

(** The changes made between two stores. *)
Definition writes (st st' : sstore) (ws : list dbwrite) : Prop :=
  s_log st' = s_log st ++ ws /\ s_db st' = replay (s_db st) ws.

Lemma writes_nil st st' : s_log st' = s_log st -> s_db st' = s_db st -> writes st st' [].
Proof. intros H1 H2. split; [by rewrite app_nil_r|done]. Qed.

Lemma writes_trans st1 st2 st3 ws1 ws2 :
  writes st1 st2 ws1 -> writes st2 st3 ws2 -> writes st1 st3 (ws1 ++ ws2).
Proof.
  intros [L1 D1] [L2 D2]. split.
  - by rewrite L2, L1, app_assoc.
  - unfold replay in *. by rewrite foldl_app, <- D1.
Qed.

(** A change written directly by training: a record with at most one message. *)
Definition small_write (Q : winfo -> Prop) (x : dbwrite) : Prop :=
  exists k r, x = DPut k (DWord r) /\ plain (WStr k) /\ wf_record r /\ (wtotal r <= 1)%Z /\ Q r.

Lemma small_write_mono (Q Q' : winfo -> Prop) ws : (forall r, (wtotal r <= 1)%Z -> Q r -> Q' r) ->
  Forall (small_write Q) ws -> Forall (small_write Q') ws.
Proof.
  intros H Hw. eapply Forall_impl; [exact Hw|]. intros x (k&r&?&?&?&?&?). exists k, r. split_and!; eauto.
Qed.

(** The records training with [learn] writes: those of a word seen first. *)
Definition first_record (b : bool) (r : winfo) : Prop := r = bump b wi_new.

Lemma look_plain_str st s : look st (WStr s) =
  match s_mem st !! WStr s with
  | Some r => Some r
  | None => if decide (WStr s ∈ s_deleted st) then None
            else match s_db st !! s with Some (DWord r) => Some r | _ => None end
  end.
Proof. done. Qed.

Lemma look_wf st w r : sinv st -> look st w = Some r -> wf_record r.
Proof.
  intros H. unfold look. destruct (s_mem st !! w) as [r'|] eqn:E.
  - intros [= <-]. by eapply (i_mem st H).
  - destruct (decide _); [done|]. destruct w as [s| |]; try done.
    destruct (s_db st !! s) as [[r'|]|] eqn:Ed; try done. intros [= <-].
    by apply (d_rec _ (i_db st H)) in Ed as [? _].
Qed.

Lemma get_spec st w : sinv st -> plain w -> exists st',
  shelve_get w st = (st', Ok (look st w)) /\ sinv st' /\
  (forall w', look st' w' = look st w') /\
  s_mem st' !! w = look st w /\
  s_db st' = s_db st /\ s_log st' = s_log st /\ s_changed st' = s_changed st /\
  s_deleted st' = s_deleted st.
Proof.
  intros H Hp. destruct (plain_key w Hp) as (s&->&Hk&Hs).
  assert (El : look st (WStr s) = match s_mem st !! WStr s with
    | Some r => Some r
    | None => if decide (WStr s ∈ s_deleted st) then None
            else match s_db st !! s with Some (DWord r) => Some r | _ => None end
    end) by done.
  unfold shelve_get. rewrite Hk.
  destruct (s_mem st !! WStr s) as [r|] eqn:Em; rewrite El.
  { exists st. split_and!; done. }
  destruct (decide (WStr s ∈ s_deleted st)) as [Hd|Hd].
  { exists st. split_and!; done. }
  destruct (s_db st !! s) as [[r|v a b]|] eqn:Ed.
  - eexists. split; [done|]. split; [|split; [|split; [|done]]].
    + destruct H as [H1 H2 H3 H4 H5]. pose proof (d_rec _ H1 _ _ Ed) as [Hr _].
      constructor; simpl; try done.
      * intros w r'. destruct (decide (w = WStr s)) as [->|Hne].
        -- rewrite lookup_insert. by intros [= <-].
        -- rewrite lookup_insert_ne by done. apply H2.
      * intros s' r'. destruct (decide (s' = s)) as [->|Hne].
        -- rewrite lookup_insert. by intros [= <-].
        -- rewrite lookup_insert_ne by congruence. apply H3.
      * intros w Hw. destruct (H4 w Hw) as (r'&E&?). exists r'. split; [|done].
        destruct (decide (w = WStr s)) as [->|Hne]; [congruence|]. by rewrite lookup_insert_ne.
      * intros w Hw. destruct (H5 w Hw) as [??]. split; [done|].
        destruct (decide (w = WStr s)) as [->|Hne]; [done|]. by rewrite lookup_insert_ne.
    + intros w'. unfold look; simpl. destruct (decide (w' = WStr s)) as [->|Hne].
      * rewrite lookup_insert, Em. rewrite decide_False by done. by rewrite Ed.
      * by rewrite lookup_insert_ne by done.
    + simpl. by rewrite lookup_insert.
  - apply (d_state _ (i_db st H)) in Ed as [-> _]. done.
  - exists st. split_and!; done.
Qed.

(** [_wordinfoset] after [_wordinfoget]: the word is in memory, or the record
    is small. *)
Lemma set_spec st w r : sinv st -> plain w -> wf_record r ->
  (wtotal r <= 1)%Z \/ is_Some (s_mem st !! w) -> exists st' ws,
  shelve_set w r st = (st', Ok tt) /\ sinv st' /\
  look st' w = Some r /\ (forall w', w' <> w -> look st' w' = look st w') /\
  writes st st' ws /\ Forall (small_write (eq r)) ws.
Proof.
  intros H Hp Hr Hpre. unfold shelve_set. destruct (plain_key w Hp) as (s&->&Hk&Hs).
  fold (wtotal r). destruct (Z.leb_spec (wtotal r) 1) as [Hle|Hgt].
  - rewrite Hk. eexists _, [DPut s (DWord r)]. split; [done|].
    destruct H as [H1 H2 H3 H4 H5]. split; [|split; [|split; [|split]]].
    + constructor; simpl.
      * by apply wf_db_put.
      * intros w r'. rewrite lookup_delete_Some. intros [_ E]. by apply H2.
      * intros s' r'. rewrite lookup_delete_Some. intros [Hne E] Hc.
        rewrite lookup_insert_ne by congruence. apply H3; [done|]. set_solver.
      * intros w Hw. destruct (H4 w) as (r'&E&?); [set_solver|]. exists r'. split; [|done].
        rewrite lookup_delete_ne by set_solver. done.
      * intros w Hw. destruct (H5 w) as [??]; [set_solver|]. split; [done|].
        rewrite lookup_delete_None. by right.
    + rewrite look_plain_str. simpl. rewrite lookup_delete, lookup_insert.
      rewrite decide_False by set_solver. done.
    + intros w' Hne. unfold look; simpl. rewrite lookup_delete_ne by done.
      destruct (s_mem st !! w') as [r'|] eqn:Em; [done|].
      destruct (decide (w' ∈ s_deleted st)) as [Hd|Hd].
      * rewrite decide_True by set_solver. done.
      * rewrite decide_False by set_solver. destruct w' as [s'| |]; try done.
        by rewrite lookup_insert_ne by congruence.
    + done.
    + constructor; [|done]. exists s, r. done.
  - destruct Hpre as [?|[r0 Em]]; [lia|].
    eexists _, []. split; [done|]. destruct H as [H1 H2 H3 H4 H5].
    split; [|split; [|split; [|split]]].
    + constructor; simpl; try done.
      * intros w r'. destruct (decide (w = WStr s)) as [->|Hne].
        -- rewrite lookup_insert. by intros [= <-].
        -- rewrite lookup_insert_ne by done. apply H2.
      * intros s' r'. destruct (decide (s' = s)) as [->|Hne].
        -- set_solver.
        -- rewrite lookup_insert_ne by congruence. intros E Hc. apply H3; [done|]. set_solver.
      * intros w Hw. destruct (decide (w = WStr s)) as [->|Hne].
        -- rewrite lookup_insert. exists r. split; [done|lia].
        -- rewrite lookup_insert_ne by done. apply H4. set_solver.
      * intros w Hw. destruct (H5 w Hw) as [??]. split; [done|].
        rewrite lookup_insert_ne; [done|]. intros <-. congruence.
    + rewrite look_plain_str. simpl. by rewrite lookup_insert.
    + intros w' Hne. unfold look; simpl. by rewrite lookup_insert_ne by done.
    + by apply writes_nil.
    + done.
Qed.

Lemma del_spec st w r : sinv st -> plain w -> s_mem st !! w = Some r -> w ∉ s_changed st -> exists st',
  shelve_del w st = (st', Ok tt) /\ sinv st' /\
  look st' w = None /\ (forall w', w' <> w -> look st' w' = look st w') /\ writes st st' [].
Proof.
  intros H Hp Em Hc. unfold shelve_del. rewrite Em. eexists. split; [done|].
  destruct H as [H1 H2 H3 H4 H5]. split; [|split; [|split]].
  - constructor; simpl; try done.
    + intros w' r'. rewrite lookup_delete_Some. intros [_ E]. by apply H2.
    + intros s' r'. rewrite lookup_delete_Some. intros [_ E] Hc'. by apply H3.
    + intros w' Hw. rewrite lookup_delete_ne by set_solver. by apply H4.
    + intros w' Hw. rewrite lookup_delete_None.
      destruct (decide (w' = w)) as [->|Hne]; [by auto|].
      destruct (H5 w') as [??]; [set_solver|]. auto.
  - unfold look; simpl. rewrite lookup_delete, decide_True by set_solver. done.
  - intros w' Hne. unfold look; simpl. rewrite lookup_delete_ne by done.
    destruct (s_mem st !! w'); [done|].
    destruct (decide (w' ∈ s_deleted st)) as [Hd|Hd].
    + by rewrite decide_True by set_solver.
    + by rewrite decide_False by set_solver.
  - by apply writes_nil.
Qed.

(** ** One message *)
Lemma wf_total r : wf_record r -> (1 <= wtotal r)%Z.
Proof. unfold wf_record, wtotal. lia. Qed.

Lemma add_word_spec b w st : sinv st -> plain w -> exists st' ws,
  add_word shelve_backend b w st = (st', Ok tt) /\ sinv st' /\
  look st' w = Some (bump b (default wi_new (look st w))) /\
  (forall w', w' <> w -> look st' w' = look st w') /\
  writes st st' ws /\ Forall (small_write (first_record b)) ws.
Proof.
  intros H Hp. destruct (get_spec st w H Hp) as (st1&E1&H1&L1&M1&D1&G1&C1&X1).
  unfold add_word, mbind. cbn [bk_get bk_set shelve_backend]. rewrite E1.
  set (r := match look st w with None => wi_new | Some r => r end).
  set (r' := if b then _ else _).
  assert (r' = bump b (default wi_new (look st w))) as Er.
  { unfold r', bump, default, r. destruct (look st w); done. }
  assert (wf_record r') as Hwf.
  { rewrite Er. destruct (look st w) as [r0|] eqn:El; simpl.
    - apply wf_bump. exact (look_wf st w r0 H El).
    - apply wf_bump_new. }
  destruct (set_spec st1 w r' H1 Hp Hwf) as (st2&ws&E2&H2&L2&O2&W2&S2).
  { rewrite M1. destruct (look st w) as [r0|] eqn:El; [right; by eexists|left].
    unfold r', r, wtotal. destruct b; simpl; lia. }
  exists st2, ws. rewrite E2. split_and!; try done.
  - intros w' Hne. by rewrite O2, L1.
  - destruct W2 as [W2 W2']. split; congruence.
  - eapply small_write_mono; [|exact S2]. cbv beta. intros r0 Hle <-. unfold first_record.
    rewrite Er in *. destruct (look st w) as [r0|] eqn:El; [|done].
    pose proof (wf_total _ (look_wf st w r0 H El)). simpl in Hle. unfold wtotal, bump in *.
    destruct b; simpl in *; lia.
Qed.

Lemma remove_word_spec b w st : sinv st -> plain w -> exists st' ws,
  remove_word shelve_backend b w st = (st', Ok tt) /\ sinv st' /\
  look st' w = unbump_opt b (look st w) /\
  (forall w', w' <> w -> look st' w' = look st w') /\
  writes st st' ws /\ Forall (small_write (fun _ => True)) ws.
Proof.
  intros H Hp. destruct (get_spec st w H Hp) as (st1&E1&H1&L1&M1&D1&G1&C1&X1).
  unfold remove_word, mbind. cbn [bk_get bk_set bk_del shelve_backend]. rewrite E1.
  destruct (look st w) as [r|] eqn:El.
  2:{ exists st1, []. split_and!; try done; [by rewrite L1|by apply writes_nil]. }
  change (if b then if (0 <? spamcount r)%Z then WI (spamcount r - 1) (hamcount r) else r
          else if (0 <? hamcount r)%Z then WI (spamcount r) (hamcount r - 1) else r)
    with (unbump b r).
  change ((hamcount (unbump b r) =? 0)%Z && (spamcount (unbump b r) =? 0)%Z)
    with (is_zero (unbump b r)).
  pose proof (look_wf st w r H El) as Hr.
  pose proof (wf_unbump_opt b (Some r) (unbump b r)) as Hub. unfold unbump_opt in *.
  destruct (is_zero (unbump b r)) eqn:Ez.
  - destruct (del_spec st1 w r H1 Hp M1) as (st2&E2&H2&L2&O2&W2).
    { intros Hc. destruct (i_changed st1 H1 w Hc) as (r'&Er'&Ht).
      rewrite M1 in Er'. injection Er' as <-. apply is_zero_spec in Ez as [Z1 Z2].
      unfold wtotal in Ht. unfold unbump in Z1, Z2. unfold wf_record in Hr.
      destruct b;
        [destruct (Z.ltb_spec 0 (spamcount r))|destruct (Z.ltb_spec 0 (hamcount r))];
        simpl in *; lia. }
    exists st2, []. rewrite E2. split_and!; try done.
    + intros w' Hne. by rewrite O2, L1.
    + destruct W2 as [W2 W2']. split; congruence.
  - destruct (set_spec st1 w (unbump b r) H1 Hp) as (st2&ws&E2&H2&L2&O2&W2&S2).
    { apply Hub; [|done]. by intros r0 [= <-]. }
    { right. by eexists. }
    exists st2, ws. rewrite E2. split_and!; try done.
    + intros w' Hne. by rewrite O2, L1.
    + destruct W2 as [W2 W2']. split; congruence.
    + by eapply small_write_mono; [|exact S2].
Qed.

Section loop.
  Context (body : pyword -> M sstore unit) (f : option winfo -> option winfo)
    (Q : winfo -> Prop).
  Context (Hbody : forall w st, sinv st -> plain w -> exists st' ws,
    body w st = (st', Ok tt) /\ sinv st' /\ look st' w = f (look st w) /\
    (forall w', w' <> w -> look st' w' = look st w') /\
    writes st st' ws /\ Forall (small_write Q) ws).

  Lemma loop_spec l : NoDup l -> Forall plain l -> forall st, sinv st -> exists st' ws,
    mfor l body st = (st', Ok tt) /\ sinv st' /\
    (forall w, look st' w = if bool_decide (w ∈ l) then f (look st w) else look st w) /\
    writes st st' ws /\ Forall (small_write Q) ws.
  Proof.
    induction 1 as [|x l Hx Hnd IH]; intros Hl st H; simpl.
    - exists st, []. split_and!; try done. by apply writes_nil.
    - apply Forall_cons in Hl as [Hp Hl].
      destruct (Hbody x st H Hp) as (st1&ws1&E1&H1&L1&O1&W1&S1).
      destruct (IH Hl st1 H1) as (st2&ws2&E2&H2&L2&W2&S2).
      exists st2, (ws1 ++ ws2). unfold mbind. rewrite E1, E2. split_and!; try done.
      + intros w. rewrite L2. destruct (decide (w = x)) as [->|Hne].
        * rewrite bool_decide_eq_false_2 by done. by rewrite bool_decide_eq_true_2 by left.
        * rewrite O1 by done. destruct (decide (w ∈ l)).
          -- by rewrite !bool_decide_eq_true_2 by (try right; done).
          -- by rewrite !bool_decide_eq_false_2 by (rewrite ?elem_of_cons; tauto).
      + by eapply writes_trans.
      + by apply Forall_app.
  Qed.
End loop.

(** ** Whole calls *)
Section calls.
  Context {A : num} (it : set_order) (Hit : set_order_ok it).
  Notation sobj := (obj A sstore).

  (** Invariant between calls. *)
  Record oinv (o : sobj) : Prop := {
    o_sinv : sinv (o_store o);
    o_cok : cache_ok o;
    o_bg : o_bigrams o = Some false;
    o_tot : db_totals (s_db (o_store o)) = (o_nspam o, o_nham o);
    o_nn : (0 <= o_nspam o)%Z /\ (0 <= o_nham o)%Z
  }.

  Lemma cache_ok_empty (o : sobj) : o_cache o = ∅ -> cache_ok o.
  Proof. intros E sc hc row p. rewrite E. by rewrite lookup_empty. Qed.

  Lemma it_plain ws : Forall plain ws -> Forall plain (it ws).
  Proof. rewrite !Forall_forall. intros H w Hw. apply H. by apply (proj2 (Hit ws)). Qed.

  Lemma state_write_inv st s h : sinv st -> (0 <= s)%Z -> (0 <= h)%Z ->
    sinv (fst (write_state_key s h st)).
  Proof.
    intros [H1 H2 H3 H4 H5] Hs Hh. constructor; simpl; try done.
    - by apply wf_db_state.
    - intros s' r E Hc. rewrite lookup_insert_ne; [by apply H3|].
      intros <-. apply H2 in E as [E _]. by apply state_not_plain in E.
  Qed.

  Lemma state_write_look st s h w : wf_db (s_db st) ->
    look (fst (write_state_key s h st)) w = look st w.
  Proof.
    intros Hd. unfold look; simpl. destruct (s_mem st !! w); [done|].
    destruct (decide _); [done|]. destruct w as [k| |]; try done.
    destruct (decide (k = STATE_KEY)) as [->|Hne].
    - rewrite lookup_insert. destruct (s_db st !! STATE_KEY) as [[r|]|] eqn:E; try done.
      apply (d_rec _ Hd) in E as [_ E]. by apply state_not_plain in E.
    - by rewrite lookup_insert_ne by done.
  Qed.

  Lemma db_totals_state d s h : db_totals (<[STATE_KEY := DState PICKLE_VERSION s h]> d) = (s, h).
  Proof. unfold db_totals. by rewrite lookup_insert. Qed.

  Lemma train_spec (o : sobj) ws (body : pyword -> M sstore unit) f Q s h :
    (forall w st, sinv st -> plain w -> exists st' ws,
      body w st = (st', Ok tt) /\ sinv st' /\ look st' w = f (look st w) /\
      (forall w', w' <> w -> look st' w' = look st w') /\
      writes st st' ws /\ Forall (small_write Q) ws) ->
    oinv o -> Forall plain ws -> (0 <= s)%Z -> (0 <= h)%Z ->
    exists st' log,
      on_store (mbind (mfor (it ws) body) (fun _ => bk_post shelve_backend s h))
               (Obj (Some false) s h ∅ (o_store o) : sobj) =
        (Obj (Some false) s h ∅ st', Ok tt) /\
      oinv (Obj (Some false) s h ∅ st' : sobj) /\
      (forall w, look st' w = if bool_decide (w ∈ ws) then f (look (o_store o) w)
                              else look (o_store o) w) /\
      writes (o_store o) st' (log ++ [DPut STATE_KEY (DState PICKLE_VERSION s h)]) /\
      Forall (small_write Q) log.
  Proof.
    intros Hb Ho Hws Hs Hh.
    destruct (loop_spec body f Q Hb (it ws) (proj1 (Hit ws)) (it_plain ws Hws)
                (o_store o) (o_sinv o Ho)) as (st1&log&E1&H1&L1&W1&S1).
    eexists (fst (write_state_key s h st1)), log.
    unfold on_store, mbind. cbn [o_store]. rewrite E1. cbn [bk_post shelve_backend].
    split; [done|]. split; [|split; [|split]].
    - constructor; cbn [o_store o_nspam o_nham o_bigrams]; try done.
      + by apply state_write_inv.
      + apply db_totals_state.
    - intros w. rewrite state_write_look by apply H1. rewrite L1.
      by rewrite (bool_decide_ext _ _ (proj2 (Hit ws) w)).
    - by eapply writes_trans.
    - done.
  Qed.

  Lemma learn_spec (o : sobj) s (b : bool) : oinv o -> Forall plain (elems s) ->
    exists st' log,
      let n := (if b then o_nspam o + 1 else o_nspam o)%Z in
      let m := (if b then o_nham o else o_nham o + 1)%Z in
      learn shelve_backend it s b o = (Obj (Some false) n m ∅ st', Ok tt) /\
      oinv (Obj (Some false) n m ∅ st' : sobj) /\
      (forall w, look st' w = if bool_decide (w ∈ elems s)
                              then Some (bump b (default wi_new (look (o_store o) w)))
                              else look (o_store o) w) /\
      writes (o_store o) st' (log ++ [DPut STATE_KEY (DState PICKLE_VERSION n m)]) /\
      Forall (small_write (first_record b)) log.
  Proof.
    intros Ho Hs. unfold learn. rewrite (o_bg o Ho). pose proof (o_nn o Ho) as [N1 N2].
    destruct (train_spec o (elems s) (add_word shelve_backend b)
                (fun r => Some (bump b (default wi_new r))) (first_record b)
                (if b then o_nspam o + 1 else o_nspam o)%Z
                (if b then o_nham o else o_nham o + 1)%Z (add_word_spec b) Ho Hs)
      as (st'&log&E&R).
    { destruct b; lia. } { destruct b; lia. }
    exists st', log. split; [|exact R].
    rewrite <- E. pose proof (o_bg o Ho) as Hbg. clear -Hbg.
    destruct o as [bg ns nh ca st]; simpl in Hbg; subst bg. by destruct b.
  Qed.

  Lemma unlearn_spec (o : sobj) s (b : bool) : oinv o -> Forall plain (elems s) ->
    (0 < (if b then o_nspam o else o_nham o))%Z ->
    exists st' log,
      let n := (if b then o_nspam o - 1 else o_nspam o)%Z in
      let m := (if b then o_nham o else o_nham o - 1)%Z in
      unlearn shelve_backend it s b o = (Obj (Some false) n m ∅ st', Ok tt) /\
      oinv (Obj (Some false) n m ∅ st' : sobj) /\
      (forall w, look st' w = if bool_decide (w ∈ elems s)
                              then unbump_opt b (look (o_store o) w)
                              else look (o_store o) w) /\
      writes (o_store o) st' (log ++ [DPut STATE_KEY (DState PICKLE_VERSION n m)]) /\
      Forall (small_write (fun _ => True)) log.
  Proof.
    intros Ho Hs Hpos. unfold unlearn. rewrite (o_bg o Ho). pose proof (o_nn o Ho) as [N1 N2].
    destruct (train_spec o (elems s) (remove_word shelve_backend b) (unbump_opt b) (fun _ => True)
                (if b then o_nspam o - 1 else o_nspam o)%Z
                (if b then o_nham o else o_nham o - 1)%Z (remove_word_spec b) Ho Hs)
      as (st'&log&E&R).
    { destruct b; lia. } { destruct b; lia. }
    exists st', log. split; [|exact R].
    rewrite <- E. unfold remove_msg.
    destruct (Z.leb_spec (if b then o_nspam (with_cache o ∅) else o_nham (with_cache o ∅)) 0) as [Hc|_].
    { destruct b; simpl in Hc; lia. }
    pose proof (o_bg o Ho) as Hbg. clear -Hbg.
    destruct o as [bg ns nh ca st]; simpl in Hbg; subst bg. by destruct b.
  Qed.

  Lemma unlearn_zero (o : sobj) s (b : bool) : oinv o ->
    ((if b then o_nspam o else o_nham o) <= 0)%Z ->
    unlearn shelve_backend it s b o =
      (Obj (Some false) (o_nspam o) (o_nham o) ∅ (o_store o), Err ValueError).
  Proof.
    intros Ho Hz. unfold unlearn. rewrite (o_bg o Ho). unfold remove_msg.
    destruct (Z.leb_spec (if b then o_nspam (with_cache o ∅) else o_nham (with_cache o ∅)) 0) as [_|Hc].
    - unfold with_cache. by rewrite (o_bg o Ho).
    - destruct b; simpl in Hc; lia.
  Qed.

  Lemma clear_cache_oinv (o : sobj) : oinv o ->
    oinv (Obj (Some false) (o_nspam o) (o_nham o) ∅ (o_store o)).
  Proof. intros []. constructor; try done. Qed.

  (** Scoring *)
  Definition same_disk (st0 st : sstore) : Prop :=
    sinv st /\ s_db st = s_db st0 /\ s_log st = s_log st0.

  Lemma get_same_disk st0 : forall st w, same_disk st0 st -> plain w -> exists st',
    bk_get shelve_backend w st = (st', Ok (look st w)) /\ same_disk st0 st' /\
    forall w', look st' w' = look st w'.
  Proof.
    intros st w (H&D&L) Hp. destruct (get_spec st w H Hp) as (st1&E1&H1&L1&M1&D1&G1&_).
    exists st1. split; [done|]. split; [|done]. split; [done|]. split; congruence.
  Qed.

  Lemma score_spec (o : sobj) s : oinv o -> Forall plain (elems s) -> exists o',
    spamprob_evidence shelve_backend it s o =
      (o', pscore_evidence it (look (o_store o)) (o_nspam o) (o_nham o) (Some false) (elems s)) /\
    oinv o' /\ o_nspam o' = o_nspam o /\ o_nham o' = o_nham o /\
    (forall w, look (o_store o') w = look (o_store o) w) /\
    writes (o_store o) (o_store o') [].
  Proof.
    intros Ho Hs.
    destruct (spamprob_evidence_computes shelve_backend it (same_disk (o_store o)) look plain
                (get_same_disk (o_store o)) s o) as (o'&E&[L1 L2 L3 L4 L5 L6]).
    { split; [|apply Ho]. by split; [apply Ho|]. }
    { rewrite (o_bg o Ho). simpl. by apply it_plain. }
    exists o'. rewrite (o_bg o Ho) in *. destruct L1 as (I&D&G).
    split_and!; try done.
    - constructor; try done; try congruence.
      + by rewrite D, L4, L5, (o_tot o Ho).
      + rewrite L4, L5. apply Ho.
    - by apply writes_nil.
  Qed.
End calls.
