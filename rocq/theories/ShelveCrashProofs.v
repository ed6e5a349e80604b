(** * Crash points, word listing and foreign words of the database-backed
    classifier *)
From Coq Require Import String Lia Reals Lra.
From Verif Require Import Py NumModel ClassifierModel TrainSpec TrainProofs ScoreProofs
  SortProofs ScoreSpec ClueProofs RealModel RealSpec RealProofs ExactProofs ApiProofs
  ShelveModel ShelveSpec ShelveProofs ShelveRunProofs.
Local Open Scope nat_scope.

(** ** C25: the listing *)
Section listing.
  Context {A : num} (it : set_order) (Hit : set_order_ok it).
  Notation sobj := (obj A sstore).

  Lemma recorded_some (o : sobj) k r : oinv o -> recorded o (WStr k) = Ok (Some r) ->
    look (o_store o) (WStr k) = Some r.
  Proof.
    intros I. unfold recorded, shelve_get, look.
    destruct (s_mem (o_store o) !! WStr k) as [r0|]; [by intros [= ->]|].
    destruct (decide _); [done|]. destruct (shelf_key (WStr k)) as [k'|] eqn:Ek; [|done].
    simpl in Ek. destruct (existsb _ k); [done|]. injection Ek as <-.
    destruct (s_db (o_store o) !! k) as [[r0|]|]; try done. by intros [= ->].
  Qed.

  Lemma listing_after_store (P : sop -> Prop) d xs : (forall x, P x -> plain_op x) -> left_behind A P d ->
    Forall plain_op xs ->
    let o := fst (run_sops it xs (fst (shelve_open (A:=A) d))) in
    exists (o1 : sobj) ks, shelve_store it o = (o1, Ok tt) /\ shelve_keys o1 = Ok ks /\
      forall k, k ∈ ks <-> exists r, recorded o (WStr k) = Ok (Some r).
  Proof.
    intros HP Hl Hxs o. pose proof (left_behind_wf A P d HP Hl) as Hd.
    destruct (open_spec (A:=A) d Hd) as [_ I0].
    destruct (run_sops_inv it Hit xs _ I0 Hxs) as (_&I&_). fold o in I.
    destruct (store_spec it Hit o I) as (st1&ws1&ws2&E1&I1&Sv&_&Kst&L1&_&_&_).
    exists (with_store o st1). eexists. split; [done|].
    unfold shelve_keys. cbn [o_store with_store].
    rewrite decide_True by (apply elem_of_dom; eauto). split; [done|].
    intros k. rewrite elem_of_difference, elem_of_dom, elem_of_singleton.
    pose proof (look_saved st1 (WStr k) (o_sinv _ I1) (proj1 Sv) (proj2 Sv)) as Hlk.
    rewrite L1 in Hlk. simpl in Hlk. split.
    - intros [[v Ev] Hne]. rewrite Ev in Hlk. destruct v as [r|v s h].
      + exists r. rewrite recorded_look; [by rewrite Hlk|done|].
        by apply (d_rec _ (i_db _ (o_sinv _ I1))) in Ev as [_ ?].
      + by apply (d_state _ (i_db _ (o_sinv _ I1))) in Ev as [-> _].
    - intros [r Hr]. apply recorded_some in Hr; [|done]. rewrite Hr in Hlk.
      destruct (s_db st1 !! k) as [[r0|]|] eqn:Ek; try done. split; [by eexists|].
      intros ->. apply (d_rec _ (i_db _ (o_sinv _ I1))) in Ek as [_ Ek]. by apply state_not_plain in Ek.
  Qed.
End listing.

(** ** C26: crash points *)
Definition bounded (s h : Z) (d : database) : Prop :=
  forall k r, d !! k = Some (DWord r) -> (spamcount r <= s)%Z /\ (hamcount r <= h)%Z.

Definition good_db (d : database) : Prop :=
  wf_db d /\ bounded (Z.max 1 (db_totals d).1) (Z.max 1 (db_totals d).2) d.

Lemma prefix_inv (P : database -> Prop) (Q : dbwrite -> Prop) ws :
  (forall d x, P d -> Q x -> P (db_apply d x)) -> Forall Q ws ->
  forall d n, P d -> P (replay d (take n ws)).
Proof.
  intros Hstep. induction 1 as [|x ws Hx _ IH]; intros d n Hd.
  - by rewrite take_nil.
  - destruct n as [|n]; [done|]. simpl. apply IH. by apply Hstep.
Qed.

Lemma whole_inv (P : database -> Prop) (Q : dbwrite -> Prop) ws d :
  (forall d x, P d -> Q x -> P (db_apply d x)) -> Forall Q ws -> P d -> P (replay d ws).
Proof.
  intros H1 H2 H3. pose proof (prefix_inv P Q ws H1 H2 d (length ws) H3) as H.
  by rewrite firstn_all in H.
Qed.

Lemma bounded_mono s h s' h' d : (s <= s')%Z -> (h <= h')%Z -> bounded s h d -> bounded s' h' d.
Proof. intros Hs Hh H k r E. destruct (H k r E). lia. Qed.

Lemma bounded_put s h d k r : bounded s h d -> (spamcount r <= s)%Z -> (hamcount r <= h)%Z ->
  bounded s h (<[k := DWord r]> d).
Proof.
  intros H Hs Hh k' r'. destruct (decide (k' = k)) as [->|Hne].
  - rewrite lookup_insert. by intros [= <-].
  - rewrite lookup_insert_ne by done. apply H.
Qed.

Lemma bounded_state s h d k v a b : bounded s h d -> bounded s h (<[k := DState v a b]> d).
Proof.
  intros H k' r'. destruct (decide (k' = k)) as [->|Hne].
  - by rewrite lookup_insert.
  - rewrite lookup_insert_ne by done. apply H.
Qed.

Lemma bounded_del s h d k : bounded s h d -> bounded s h (delete k d).
Proof. intros H k' r'. rewrite lookup_delete_Some. intros [_ E]. by eapply H. Qed.

Lemma totals_put d k v : k <> STATE_KEY -> db_totals (<[k := v]> d) = db_totals d.
Proof. intros H. unfold db_totals. by rewrite lookup_insert_ne. Qed.

Lemma totals_del d k : k <> STATE_KEY -> db_totals (delete k d) = db_totals d.
Proof. intros H. unfold db_totals. by rewrite lookup_delete_ne. Qed.

Lemma plain_not_state k : plain (WStr k) -> k <> STATE_KEY.
Proof. intros Hp ->. by apply state_not_plain in Hp. Qed.

Section crash.
  Context {A : num} (it : set_order) (Hit : set_order_ok it).
  Notation sobj := (obj A sstore).

  Record linv (o : sobj) : Prop := {
    l_oinv : oinv o;
    l_mem : forall w r, s_mem (o_store o) !! w = Some r ->
              (spamcount r <= o_nspam o)%Z /\ (hamcount r <= o_nham o)%Z;
    l_db : bounded (o_nspam o) (o_nham o) (s_db (o_store o))
  }.

  Lemma linv_look (o : sobj) w r : linv o -> look (o_store o) w = Some r ->
    (spamcount r <= o_nspam o)%Z /\ (hamcount r <= o_nham o)%Z.
  Proof.
    intros [I M D]. unfold look. destruct (s_mem (o_store o) !! w) as [r0|] eqn:E.
    - intros [= <-]. by eapply M.
    - destruct (decide _); [done|]. destruct w as [k| |]; try done.
      destruct (s_db (o_store o) !! k) as [[r0|]|] eqn:Ed; try done.
      intros [= <-]. by eapply D.
  Qed.

  Lemma mem_look st w r : s_mem st !! w = Some r -> look st w = Some r.
  Proof. intros E. unfold look. by rewrite E. Qed.

  Lemma linv_good (o : sobj) : linv o -> good_db (s_db (o_store o)).
  Proof.
    intros [I M D]. split; [apply I|]. rewrite (o_tot o I). simpl.
    eapply bounded_mono; [| |exact D]; lia.
  Qed.

  Lemma step_linv x (o : sobj) : linv o -> plain_op x -> ~ is_unlearn x -> exists ws,
    linv (fst (run_sop it x o)) /\
    writes (o_store o) (o_store (fst (run_sop it x o))) ws /\
    forall n, good_db (replay (s_db (o_store o)) (take n ws)).
  Proof.
    intros L Hx Hu. pose proof (l_oinv o L) as I. pose proof (o_nn o I) as [N1 N2].
    destruct x as [c| | |].
    - destruct c as [s b|s b|s]; [|by destruct Hu|];
        pose proof (plain_elems _ s Hx eq_refl) as Hs; simpl.
      + destruct (learn_spec it Hit o s b I Hs) as (st'&log&E&I'&L'&W&S1).
        set (n' := (if b then o_nspam o + 1 else o_nspam o)%Z) in *.
        set (m' := (if b then o_nham o else o_nham o + 1)%Z) in *.
        assert (o_nspam o <= n' /\ o_nham o <= m')%Z as [Hn Hm] by (unfold n', m'; destruct b; lia).
        rewrite E. simpl. eexists. split; [|split; [exact W|]].
        * constructor; simpl; [exact I'| |].
          -- intros w r Em. apply mem_look in Em. rewrite L' in Em.
             destruct (bool_decide (w ∈ elems s)).
             ++ injection Em as <-. destruct (look (o_store o) w) as [r0|] eqn:El; simpl.
                ** apply (linv_look o) in El; [|done]. unfold bump, n', m'. destruct b; simpl; lia.
                ** unfold bump, n', m'. destruct b; simpl; lia.
             ++ apply (linv_look o) in Em; [|done]. lia.
          -- destruct W as [_ W]. rewrite W. unfold replay. rewrite foldl_app. simpl.
             apply bounded_state. fold (replay (s_db (o_store o)) log).
             apply (whole_inv (bounded n' m') (small_write (first_record b))); [|done|].
             ++ intros d x Hd (k&r&->&_&_&_&->). simpl. apply bounded_put; [done|..];
                  unfold n', m'; destruct b; simpl; lia.
             ++ eapply bounded_mono; [| |apply L]; done.
        * intros n. destruct (decide (n <= length log)) as [Hle|Hgt].
          -- rewrite take_app_le by done.
             set (P := fun d => wf_db d /\ db_totals d = (o_nspam o, o_nham o) /\
                       bounded (Z.max 1 (o_nspam o)) (Z.max 1 (o_nham o)) d).
             assert (P (replay (s_db (o_store o)) (take n log))) as (H1&H2&H3).
             { apply (prefix_inv P (small_write (first_record b))); [|done|].
               - intros d x (H1&H2&H3) (k&r&->&Hk&Hr&Ht&_). simpl. split_and!.
                 + by apply wf_db_put.
                 + rewrite totals_put; [done|]. by apply plain_not_state.
                 + apply bounded_put; [done|..]; unfold wf_record, wtotal in *; lia.
               - split_and!; [apply I|apply I|]. eapply bounded_mono; [| |apply L]; lia. }
             split; [done|]. by rewrite H2.
          -- rewrite take_ge by (rewrite app_length; simpl; lia).
             destruct W as [_ W]. rewrite <- W. split; [apply I'|].
             pose proof (o_tot _ I') as Et. simpl in Et. rewrite Et. simpl.
             rewrite W. unfold replay. rewrite foldl_app. simpl.
             apply bounded_state. fold (replay (s_db (o_store o)) log).
             apply (whole_inv (bounded _ _) (small_write (first_record b))); [|done|].
             ++ intros d x Hd (k&r&->&_&_&_&->). simpl. apply bounded_put; [done|..];
                  unfold n', m'; destruct b; simpl; lia.
             ++ eapply bounded_mono; [| |apply L]; lia.
      + destruct (score_spec it Hit o s I Hs) as (o'&E&I'&Ns&Nh&L'&W). rewrite E. simpl.
        exists []. split; [|split; [done|]].
        * constructor; [done| |].
          -- intros w r Em. apply mem_look in Em. rewrite L' in Em. rewrite Ns, Nh.
             by eapply linv_look.
          -- destruct W as [_ W]. rewrite W, Ns, Nh. apply L.
        * intros n. rewrite take_nil. by apply linv_good.
    - simpl. destruct (store_spec it Hit o I) as (st'&ws1&ws2&E&I'&_&M&_&L'&W&P1&P2).
      set (P := fun d => wf_db d /\ db_totals d = (o_nspam o, o_nham o) /\
                         bounded (o_nspam o) (o_nham o) d).
      set (Q := fun x => put_write (o_store o) x \/ del_write x \/
                  x = DPut STATE_KEY (DState PICKLE_VERSION (o_nspam o) (o_nham o))).
      assert (forall d x, P d -> Q x -> P (db_apply d x)) as Hstep.
      { intros d x (H1&H2&H3) [(k&r&->&Hk&Em)|[(k&->&Hk)| ->]]; simpl; split_and!.
        - apply wf_db_put; [done| |done]. by apply (i_mem _ (o_sinv o I)) in Em as [_ ?].
        - rewrite totals_put; [done|]. by apply plain_not_state.
        - apply bounded_put; [done|by eapply L..].
        - by apply wf_db_del.
        - rewrite totals_del; [done|]. by apply plain_not_state.
        - by apply bounded_del.
        - by apply wf_db_state.
        - apply db_totals_state.
        - by apply bounded_state. }
      assert (P (s_db (o_store o))) as H0 by (split_and!; [apply I|apply I|apply L]).
      set (ws := ws1 ++ ws2 ++ [DPut STATE_KEY (DState PICKLE_VERSION (o_nspam o) (o_nham o))]) in *.
      assert (Forall Q ws) as HQ.
      { unfold ws. rewrite !Forall_app. split_and!.
        - eapply Forall_impl; [exact P1|]. by left.
        - eapply Forall_impl; [exact P2|]. by right; left.
        - constructor; [by right; right|done]. }
      rewrite E. simpl. exists ws. split; [|split; [exact W|]].
      + constructor; simpl; [done| |].
        * rewrite M. apply L.
        * destruct W as [_ W]. rewrite W. by apply (whole_inv P Q).
      + intros n. destruct (prefix_inv P Q ws Hstep HQ (s_db (o_store o)) n H0) as (H1&H2&H3).
        split; [done|]. rewrite H2. simpl. eapply bounded_mono; [| |exact H3]; lia.
    - destruct (run_sop_inv it Hit SLoad o I Hx) as (_&I'&_&_).
      simpl in *. pose proof (i_db _ (o_sinv o I)) as Hd. rewrite load_spec in * by done. simpl in *.
      exists []. split; [|split; [by apply writes_nil|]].
      + constructor; simpl; [done|by intros w r; rewrite lookup_empty|].
        rewrite (o_tot o I). apply L.
      + intros n. rewrite take_nil. by apply linv_good.
    - destruct (run_sop_inv it Hit SReopen o I Hx) as (_&I'&_&_).
      simpl in *. pose proof (i_db _ (o_sinv o I)) as Hd.
      destruct (open_spec (A:=A) _ Hd) as [E _]. rewrite E in *. simpl in *.
      exists []. split; [|split; [apply writes_nil; simpl; by rewrite ?app_nil_r|]].
      + constructor; simpl; [done|by intros w r; rewrite lookup_empty|].
        rewrite (o_tot o I). apply L.
      + intros n. rewrite take_nil. by apply linv_good.
  Qed.

  Lemma steps_linv xs : forall (o : sobj), linv o -> Forall plain_op xs ->
    Forall (fun x => ~ is_unlearn x) xs -> exists ws,
    linv (fst (run_sops it xs o)) /\
    writes (o_store o) (o_store (fst (run_sops it xs o))) ws /\
    forall n, good_db (replay (s_db (o_store o)) (take n ws)).
  Proof.
    induction xs as [|x xs IH]; intros o L Hxs Hu.
    - exists []. split_and!; [done|by apply writes_nil|]. intros n. rewrite take_nil. by apply linv_good.
    - apply Forall_cons in Hxs as [Hx Hxs]. apply Forall_cons in Hu as [Hu1 Hu].
      destruct (step_linv x o L Hx Hu1) as (ws1&L1&W1&G1).
      simpl. destruct (run_sop it x o) as [o1 r1]. simpl in *.
      destruct (IH o1 L1 Hxs Hu) as (ws2&L2&W2&G2).
      destruct (run_sops it xs o1) as [o2 r2]. simpl in *.
      exists (ws1 ++ ws2). split_and!; [done|by eapply writes_trans|].
      intros n. destruct (decide (n <= length ws1)) as [Hle|Hgt].
      + rewrite take_app_le by done. apply G1.
      + rewrite take_app_ge by lia. unfold replay. rewrite foldl_app.
        destruct W1 as [_ W1]. unfold replay in W1. rewrite <- W1. apply G2.
  Qed.

  Lemma open_empty_linv : linv (fst (shelve_open (A:=A) ∅)).
  Proof.
    destruct (open_spec (A:=A) ∅ wf_db_empty) as [E I]. constructor; [done|rewrite E; simpl..].
    - intros w r. by rewrite lookup_empty.
    - intros k r. by rewrite lookup_empty.
  Qed.

  Lemma crash_good xs n : Forall plain_op xs -> Forall (fun x => ~ is_unlearn x) xs ->
    good_db (replay ∅ (take n (s_log (o_store (fst (run_sops it xs (fst (shelve_open (A:=A) ∅)))))))).
  Proof.
    intros Hxs Hu. destruct (steps_linv xs _ open_empty_linv Hxs Hu) as (ws&_&[W _]&G).
    rewrite W. destruct (open_spec (A:=A) ∅ wf_db_empty) as [E _]. rewrite E in *. simpl in *. apply G.
  Qed.

  Lemma good_open d : good_db d -> exists o : sobj, shelve_open d = (o, Ok tt) /\ oinv o /\
    forall w r, plain w -> recorded o w = Ok (Some r) ->
      consistent (spamcount r) (o_nspam o) (hamcount r) (o_nham o).
  Proof.
    intros [Hd Hb]. destruct (open_spec (A:=A) d Hd) as [E I]. rewrite E in *.
    eexists. split; [done|]. split; [exact I|]. intros w r Hw Hr.
    rewrite recorded_look in Hr by done. injection Hr as Hr.
    pose proof (look_wf _ w r (o_sinv _ I) Hr) as (Hr1&Hr2&Hr3). simpl in *.
    rewrite look_fresh in Hr. unfold look_db in Hr. destruct w as [k| |]; try done.
    destruct (d !! k) as [[r0|]|] eqn:Ek; try done. injection Hr as ->.
    destruct (Hb k r Ek) as [B1 B2]. pose proof (wf_db_totals d Hd) as [T1 T2].
    destruct (db_totals d) as [ts th]. simpl in *. unfold consistent.
    destruct (Z.eqb_spec ts 0), (Z.eqb_spec th 0); lia.
  Qed.
End crash.

Lemma plain_dec w : {plain w} + {~ plain w}.
Proof.
  destruct w as [s| |]; [|right; by intros (?&?&_)..].
  destruct (decide (Forall (fun c => ~ (55296 <= c <= 57343)%N) s)) as [H|H].
  - destruct (decide (s = str "saved state")) as [->|Hne].
    + right. intros (?&[= <-]&_&H'). done.
    + left. by exists s.
  - right. intros (?&[= <-]&H'&_). done.
Qed.

(** Scoring a text message on consistent records returns a value. *)
Lemma consistent_score it (o : obj exact sstore) s : set_order_ok it -> oinv o ->
  (forall w r, plain w -> recorded o w = Ok (Some r) ->
     consistent (spamcount r) (o_nspam o) (hamcount r) (o_nham o)) ->
  Forall plain (elems s) ->
  exists o' p ev, spamprob_evidence shelve_backend it s o = (o', Ok (p, ev)).
Proof.
  intros Hit I Hc Hs. destruct (score_spec it Hit o s I Hs) as (o'&->&_). exists o'.
  set (lk := look (o_store o)).
  assert (forall w, exists q : R, word_prob (A:=exact) lk (o_nspam o) (o_nham o) w = Ok q /\ (0 < q < 1)%R) as Hq.
  { intros w. unfold word_prob. destruct (lk w) as [r|] eqn:E.
    - destruct (plain_dec w) as [Hw|Hw].
      + assert (recorded o w = Ok (Some r)) as Hr by (rewrite recorded_look by done; fold lk; by rewrite E).
        specialize (Hc w r Hw Hr). eexists. split; [by apply prob_formula_exact|]. by apply robinson_range.
      + unfold lk in E. rewrite look_not_plain in E; [done|apply I|done].
    - eexists. split; [done|]. simpl. lra. }
  unfold pscore_evidence.
  assert (exists cs, pclues (A:=exact) it lk (o_nspam o) (o_nham o) (Some false) (elems s) = Ok cs) as [cs Ec].
  { simpl. destruct (pclues_uni_TypeError Hex lk (o_nspam o) (o_nham o) it (elems s) Hit) as [T1 T2].
    { intros w _. destruct (Hq w) as (q&E&_). by exists q. }
    destruct (pclues_uni _ _ _ _ _) as [cs|e] eqn:Ec; [eauto|]. exfalso.
    rewrite (T2 e eq_refl) in T1. destruct (proj1 T1 eq_refl) as (w1&w2&_&_&O1&O2&Hk&_).
    apply Hk. rewrite Forall_forall in Hs.
    destruct (Hs w1 O1) as (?&->&_). by destruct (Hs w2 O2) as (?&->&_). }
  rewrite Ec. cbn [rbind].
  assert (Forall (fun q => (0 < q < 1)%R) (@fmap list _ (clue exact) R c_prob cs)) as Hst.
  { apply Forall_fmap, Forall_forall. intros c Hcc.
    pose proof (pclues_elem Hex it _ _ _ _ _ _ _ Hit Ec Hcc) as Hw.
    apply word_clue_Ok in Hw as (_&_&Hp&_). destruct (Hq (c_word c)) as (q&E&Hr).
    unfold word_prob in *. rewrite Hp in E. injection E as E. simpl. by rewrite E. }
  destruct (score_probs_total _ Hst) as (p&S&H&E&_&_). 
  change (score_probs exact (@fmap list _ (clue exact) (F exact) c_prob cs) = Ok (p, S, H)) in E.
  rewrite E. simpl. eauto.
Qed.

(** ** C27: foreign words *)
Section foreign.
  Context {A : num} (it : set_order) (Hit : set_order_ok it).
  Notation sobj := (obj A sstore).

  Lemma state_key_get st v s h : sinv st -> s_db st !! STATE_KEY = Some (DState v s h) ->
    shelve_get (WStr STATE_KEY) st = (st, Err ValueError).
  Proof.
    intros H E. unfold shelve_get.
    destruct (s_mem st !! WStr STATE_KEY) as [r|] eqn:Em.
    { apply (i_mem st H) in Em as [Em _]. by apply state_not_plain in Em. }
    destruct (decide _) as [Hd|_].
    { apply (i_deleted st H) in Hd as [Hd _]. by apply state_not_plain in Hd. }
    change (shelf_key (WStr STATE_KEY)) with (Ok STATE_KEY). cbv iota beta. by rewrite E.
  Qed.

  Lemma small_keeps_state Q ws st st' : Forall (small_write Q) ws -> writes st st' ws ->
    s_db st' !! STATE_KEY = s_db st !! STATE_KEY.
  Proof.
    intros Hw [_ ->]. unfold replay. revert Hw. generalize (s_db st) as d.
    induction ws as [|x ws IH]; intros d; [done|]. intros [(k&r&->&Hk&_) Hw]%Forall_cons. simpl.
    rewrite IH by done. rewrite lookup_insert_ne; [done|]. by apply plain_not_state.
  Qed.

  Lemma state_key_loop b v s h l : forall st, sinv st -> s_db st !! STATE_KEY = Some (DState v s h) ->
    WStr STATE_KEY ∈ l -> (forall w, w ∈ l -> plain w \/ w = WStr STATE_KEY) ->
    snd (mfor l (add_word shelve_backend b) st) = Err ValueError.
  Proof.
    induction l as [|x l IH]; intros st H E Hin Hl; [by apply elem_of_nil in Hin|].
    cbn [mfor]. unfold mbind. destruct (decide (x = WStr STATE_KEY)) as [->|Hne].
    - unfold add_word at 1, mbind. cbn [bk_get shelve_backend].
      by rewrite (state_key_get st v s h).
    - destruct (Hl x) as [Hx|?]; [left| |done].
      destruct (add_word_spec b x st H Hx) as (st1&ws&E1&H1&_&_&W1&S1). rewrite E1.
      apply IH; [done| | |].
      + by rewrite (small_keeps_state _ ws st st1 S1 W1).
      + apply elem_of_cons in Hin as [?|?]; [congruence|done].
      + intros w Hw. apply Hl. by right.
  Qed.

  Lemma state_key_learn (o : sobj) s b x : oinv o -> s_db (o_store o) !! STATE_KEY = Some x ->
    WStr STATE_KEY ∈ elems s -> (forall w, w ∈ elems s -> plain w \/ w = WStr STATE_KEY) ->
    snd (learn shelve_backend it s b o) = Err ValueError.
  Proof.
    intros I E Hin Hw. destruct x as [r|v n m].
    { apply (d_rec _ (i_db _ (o_sinv o I))) in E as [_ E]. by apply state_not_plain in E. }
    pose proof (state_key_loop b v n m (it (elems s)) (o_store o) (o_sinv o I) E) as Hloop.
    unfold learn. rewrite (o_bg o I). unfold add_msg, on_store, mbind.
    assert (o_store (if b then with_counts (with_cache o ∅) (o_nspam (with_cache o ∅) + 1) (o_nham (with_cache o ∅))
               else with_counts (with_cache o ∅) (o_nspam (with_cache o ∅)) (o_nham (with_cache o ∅) + 1))
            = o_store o) as -> by by destruct b.
    destruct (mfor _ _ _) as [st' r]. simpl in Hloop. rewrite Hloop; [done|..].
    - by apply (proj2 (Hit _)).
    - intros w Hx. apply Hw. by apply (proj2 (Hit _)).
  Qed.

  Lemma foreign_get st w : sinv st -> (forall t, w <> WStr t) ->
    shelve_get w st = (st, Err AttributeError).
  Proof.
    intros H Hw. unfold shelve_get.
    destruct (s_mem st !! w) as [r|] eqn:Em.
    { apply (i_mem st H) in Em as [(t&->&_) _]. by destruct (Hw t). }
    destruct (decide _) as [Hd|_].
    { apply (i_deleted st H) in Hd as [(t&->&_) _]. by destruct (Hw t). }
    destruct w as [t| |]; [by destruct (Hw t)|done..].
  Qed.

  Lemma foreign_learn (o : sobj) s b : oinv o -> elems s <> [] ->
    (forall w t, w ∈ elems s -> w <> WStr t) -> exists o' : sobj,
    learn shelve_backend it s b o = (o', Err AttributeError) /\
    total_of b o' = (total_of b o + 1)%Z /\ total_of (negb b) o' = total_of (negb b) o /\
    o_store o' = o_store o.
  Proof.
    intros I Hne Hw. unfold learn. rewrite (o_bg o I). unfold add_msg, on_store.
    assert (o_store (if b then with_counts (with_cache o ∅) (o_nspam (with_cache o ∅) + 1) (o_nham (with_cache o ∅))
               else with_counts (with_cache o ∅) (o_nspam (with_cache o ∅)) (o_nham (with_cache o ∅) + 1))
            = o_store o) as -> by by destruct b.
    destruct (it (elems s)) as [|x l] eqn:Ei.
    { destruct (elems s) as [|x l] eqn:Es; [done|]. exfalso.
      assert (x ∈ it (x :: l)) as Hx by (apply (proj2 (Hit _)); left). rewrite Ei in Hx.
      by apply elem_of_nil in Hx. }
    unfold mbind. cbn [mfor]. unfold mbind, add_word at 1, mbind. cbn [bk_get shelve_backend].
    rewrite foreign_get; [|apply I|].
    - eexists. split; [reflexivity|]. by destruct b.
    - intros t. apply Hw. apply (proj2 (Hit _)). rewrite Ei. left.
  Qed.

  Lemma foreign_score (o : sobj) s : oinv o -> elems s <> [] ->
    (forall w t, w ∈ elems s -> w <> WStr t) ->
    snd (spamprob_evidence shelve_backend it s o) = Err AttributeError.
  Proof.
    intros I Hne Hw. unfold spamprob_evidence, mbind, getclues. rewrite (o_bg o I).
    unfold getclues_uni, mbind.
    destruct (it (elems s)) as [|x l] eqn:Ei.
    { destruct (elems s) as [|x l] eqn:Es; [done|]. exfalso.
      assert (x ∈ it (x :: l)) as Hx by (apply (proj2 (Hit _)); left). rewrite Ei in Hx.
      by apply elem_of_nil in Hx. }
    cbn [mmap]. unfold mbind, worddistanceget at 1, mbind, on_store. cbn [bk_get shelve_backend].
    rewrite foreign_get; [done|apply I|].
    intros t. apply Hw. apply (proj2 (Hit _)). rewrite Ei. left.
  Qed.
End foreign.
