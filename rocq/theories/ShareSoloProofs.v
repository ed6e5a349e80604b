(** * A process that is alone at the database behaves as in ShelveModel *)
From Coq Require Import String Lia.
From Verif Require Import Py NumModel ClassifierModel ShelveModel ShareModel.

Section follows.
  Context {X Y : Type} (inj : X -> list database -> Y) (sdb : X -> database).

  (** [m'] does what [m] does if each of its operations on the database finds
      what the previous one left. *)
  Definition follows {B} (m' : M Y B) (m : M X B) (s : X) : Prop :=
    snd (m s) <> Err PAUSED /\ exists env,
    (forall n d, env !! n = Some d -> exists s1,
       m' (inj s (take n env)) = (inj s1 [], Err PAUSED) /\ sdb s1 = d) /\
    (forall rest, m' (inj s (env ++ rest)) = (inj (fst (m s)) rest, snd (m s))).

  Lemma follows_local {B} (m' : M Y B) (m : M X B) s :
    snd (m s) <> Err PAUSED ->
    (forall env, m' (inj s env) = (inj (fst (m s)) env, snd (m s))) -> follows m' m s.
  Proof. intros Hp H. split; [done|]. exists []. split; [intros n d; by rewrite lookup_nil|done]. Qed.

  Lemma follows_mret {B} (b : B) s : follows (mret b) (mret b) s.
  Proof. by apply follows_local. Qed.

  Lemma follows_merr {B} e s : e <> PAUSED -> follows (merr e : M Y B) (merr e) s.
  Proof. intros He. apply follows_local; [intros [= E]; done|done]. Qed.

  Lemma follows_mbind {B C} (m' : M Y B) (m : M X B) (k' : B -> M Y C) (k : B -> M X C) s :
    follows m' m s -> (forall a s1, m s = (s1, Ok a) -> follows (k' a) (k a) s1) ->
    follows (mbind m' k') (mbind m k) s.
  Proof.
    intros (Hp&env1&P1&R1) Hk. unfold follows, mbind.
    destruct (m s) as [s1 [a|e]] eqn:Em; simpl in *.
    - destruct (Hk a s1 eq_refl) as (Hp2&env2&P2&R2). split; [done|]. exists (env1 ++ env2). split.
      + intros n d Hn. destruct (decide (n < length env1)) as [Hlt|Hge].
        * rewrite lookup_app_l in Hn by done. rewrite take_app_le by lia.
          destruct (P1 n d Hn) as (s2&E&Hd). exists s2. by rewrite E.
        * rewrite lookup_app_r in Hn by lia. rewrite take_app_ge by lia.
          destruct (P2 _ d Hn) as (s2&E&Hd). exists s2. by rewrite R1, E.
      + intros rest. rewrite <- app_assoc, R1. apply R2.
    - split; [intros [= E]; by subst|]. exists env1. split.
      + intros n d Hn. destruct (P1 n d Hn) as (s2&E&Hd). exists s2. by rewrite E.
      + intros rest. by rewrite R1.
  Qed.

  Lemma follows_mfor {T} (l : list T) (b' : T -> M Y unit) (b : T -> M X unit) :
    (forall x s, follows (b' x) (b x) s) -> forall s, follows (mfor l b') (mfor l b) s.
  Proof.
    intros H. induction l as [|x l IH]; intros s; simpl; [apply follows_mret|].
    by apply follows_mbind.
  Qed.

  Lemma follows_mmap {T B} (l : list T) (b' : T -> M Y B) (b : T -> M X B) :
    (forall x s, follows (b' x) (b x) s) -> forall s, follows (mmap l b') (mmap l b) s.
  Proof.
    intros H. induction l as [|x l IH]; intros s; simpl; [apply follows_mret|].
    apply follows_mbind; [done|]. intros a s1 _. apply follows_mbind; [done|].
    intros a' s2 _. apply follows_mret.
  Qed.

  Lemma follows_ext {B} (m' n' : M Y B) (m n : M X B) s :
    (forall env, m' (inj s env) = n' (inj s env)) -> m s = n s -> follows m' m s -> follows n' n s.
  Proof.
    intros H1 H2 (Hp&env&P&R). split; [by rewrite <- H2|]. exists env. split.
    - intros k d Hk. rewrite <- H1. eauto.
    - intros rest. by rewrite <- H1, <- H2.
  Qed.
End follows.

Definition pin (st : sstore) (env : list database) : pstore := (st, env).

Lemma eta_store st : SStore (s_db st) (s_mem st) (s_changed st) (s_deleted st) (s_log st) = st.
Proof. by destruct st. Qed.

Lemma follows_access {B} (m : M sstore B) st : snd (m st) <> Err PAUSED ->
  follows pin s_db (access m) m st.
Proof.
  intros Hp. split; [done|]. exists [s_db st]. split.
  - intros [|n] d; simpl; [|by rewrite lookup_nil]. intros [= <-]. by exists st.
  - intros rest. unfold access, pin. cbn [app]. rewrite eta_store. by destruct (m st).
Qed.

Lemma follows_own {B} (m : M sstore B) st : snd (m st) <> Err PAUSED ->
  follows pin s_db (own m) m st.
Proof. intros Hp. apply follows_local; [done|]. intros env. unfold own, pin. by destruct (m st). Qed.

Lemma shelf_key_not_paused w e : shelf_key w = Err e -> e <> PAUSED.
Proof. destruct w; simpl; [destruct (existsb _ _)|..]; intros [= <-]; done. Qed.

Lemma solo_get w st : follows pin s_db (shared_get w) (shelve_get w) st.
Proof.
  destruct (s_mem st !! w) as [r|] eqn:Em.
  { apply follows_local; unfold shelve_get, shared_get, pin; rewrite Em; done. }
  destruct (decide (w ∈ s_deleted st)) as [Hd|Hd] eqn:Ed.
  { apply follows_local; unfold shelve_get, shared_get, pin; rewrite Em, Ed; done. }
  destruct (shelf_key w) as [k|e] eqn:Ek.
  2:{ pose proof (shelf_key_not_paused w e Ek) as He.
      apply follows_local; unfold shelve_get, shared_get, pin; rewrite Em, Ed, Ek; [simpl; congruence|done]. }
  eapply follows_ext; [..|apply (follows_mbind pin s_db (access (db_has k)) (db_has k)
    (fun there : bool => if there
                 then mbind (access (db_read k)) (fun v =>
                        match v with
                        | DWord r => own (fun st =>
                            (SStore (s_db st) (<[w := r]> (s_mem st)) (s_changed st) (s_deleted st)
                                    (s_log st), Ok (Some r)))
                        | DState _ _ _ => merr ValueError
                        end)
                 else mret None)
    (fun there : bool => if there
                 then mbind (db_read k) (fun v =>
                        match v with
                        | DWord r => (fun st =>
                            (SStore (s_db st) (<[w := r]> (s_mem st)) (s_changed st) (s_deleted st)
                                    (s_log st), Ok (Some r)))
                        | DState _ _ _ => merr ValueError
                        end)
                 else mret None))].
  - intros env. unfold shared_get, pin. by rewrite Em, Ed, Ek.
  - unfold shelve_get, mbind, db_has, db_read. rewrite Em, Ed, Ek.
    destruct (s_db st !! k) as [[r|v s h]|] eqn:E.
    + rewrite bool_decide_eq_true_2 by eauto. by rewrite E.
    + rewrite bool_decide_eq_true_2 by eauto. by rewrite E.
    + rewrite bool_decide_eq_false_2 by (intros [? ?]; congruence). done.
  - by apply follows_access.
  - intros a s1 _. destruct a; [|apply follows_mret]. apply follows_mbind.
    + apply follows_access. unfold db_read. simpl. by destruct (s_db s1 !! k).
    + intros v s2 _. destruct v; [by apply follows_own|by apply follows_merr].
Qed.

Lemma solo_set w r st : follows pin s_db (shared_set w r) (shelve_set w r) st.
Proof.
  unfold shared_set. destruct (_ <=? 1)%Z eqn:E.
  - destruct (shelf_key w) as [k|e] eqn:Ek.
    + apply follows_access. unfold shelve_set. by rewrite E, Ek.
    + pose proof (shelf_key_not_paused w e Ek) as He.
      eapply follows_ext; [done| |by apply (follows_merr pin s_db e)].
      unfold shelve_set. by rewrite E, Ek.
  - apply follows_own. unfold shelve_set. by rewrite E.
Qed.

Lemma solo_del w st : follows pin s_db (own (shelve_del w)) (shelve_del w) st.
Proof. apply follows_own. unfold shelve_del. by destruct (_ !! w). Qed.

Lemma solo_state a b st : follows pin s_db (access (write_state_key a b)) (write_state_key a b) st.
Proof. by apply follows_access. Qed.

Lemma solo_changed w st : follows pin s_db (shared_changed w) (store_changed w) st.
Proof.
  destruct (s_mem st !! w) as [r|] eqn:Em.
  2:{ apply follows_local; unfold store_changed, shared_changed, pin; rewrite Em; done. }
  destruct (shelf_key w) as [k|e] eqn:Ek.
  - eapply follows_ext; [..|by apply (follows_access (db_write (DPut k (DWord r))))].
    + intros env. unfold shared_changed, pin. by rewrite Em, Ek.
    + unfold store_changed. by rewrite Em, Ek.
  - pose proof (shelf_key_not_paused w e Ek) as He.
    apply follows_local; unfold store_changed, shared_changed, pin; rewrite Em, Ek; [simpl; congruence|done].
Qed.

Lemma solo_deleted w st : follows pin s_db (shared_deleted w) (store_deleted w) st.
Proof.
  destruct (s_mem st !! w) as [r|] eqn:Em.
  { apply follows_local; unfold store_deleted, shared_deleted, pin; rewrite Em; done. }
  destruct (shelf_key w) as [k|e] eqn:Ek.
  - eapply follows_ext; [..|apply (follows_access (store_deleted w))].
    + intros env. unfold shared_deleted, pin. by rewrite Em, Ek.
    + done.
    + unfold store_deleted. rewrite Em, Ek. by destruct (_ !! k).
  - pose proof (shelf_key_not_paused w e Ek) as He.
    apply follows_local; unfold store_deleted, shared_deleted, pin; rewrite Em, Ek; [simpl; congruence|done].
Qed.

Section objects.
  Context {A : num} (it : set_order).
  Notation sobj := (obj A sstore).
  Notation pobj := (obj A pstore).

  Definition oin (o : sobj) (env : list database) : pobj :=
    Obj (o_bigrams o) (o_nspam o) (o_nham o) (o_cache o) (o_store o, env).
  Definition odb (o : sobj) : database := s_db (o_store o).

  Notation tracks m' m o := (follows oin odb m' m o).

  Lemma follows_on_store {B} (m' : M pstore B) (m : M sstore B) (o : sobj) :
    follows pin s_db m' m (o_store o) -> tracks (on_store m') (on_store m) o.
  Proof.
    intros (Hp&env&P&R). split.
    { unfold on_store. by destruct (m (o_store o)). }
    exists env. split.
    - intros n d Hn. destruct (P n d Hn) as (s1&E&Hd). exists (with_store o s1).
      unfold on_store, oin. cbn [o_store]. unfold pin in E. by rewrite E.
    - intros rest. unfold on_store, oin at 1. cbn [o_store]. unfold pin in R. rewrite R.
      by destruct (m (o_store o)).
  Qed.

  Lemma track_after {B : Type} (f' : pobj -> pobj) (f : sobj -> sobj) (m' : M pobj B) (m : M sobj B) o :
    (forall env, f' (oin o env) = oin (f o) env) -> tracks m' m (f o) ->
    tracks (fun o => m' (f' o)) (fun o => m (f o)) o.
  Proof.
    intros Hf (Hp&env&P&R). split; [done|]. exists env. split.
    - intros n d Hn. rewrite Hf. eauto.
    - intros rest. rewrite Hf. apply R.
  Qed.

  Lemma solo_add_word b w st : follows pin s_db (add_word shared_backend b w) (add_word shelve_backend b w) st.
  Proof.
    unfold add_word. cbn [bk_get bk_set shared_backend shelve_backend].
    apply follows_mbind; [apply solo_get|]. intros a s1 _. apply solo_set.
  Qed.

  Lemma solo_remove_word b w st :
    follows pin s_db (remove_word shared_backend b w) (remove_word shelve_backend b w) st.
  Proof.
    unfold remove_word. cbn [bk_get bk_set bk_del shared_backend shelve_backend].
    apply follows_mbind; [apply solo_get|]. intros [r|] s1 _; [|apply follows_mret].
    destruct (_ && _); [apply solo_del|apply solo_set].
  Qed.

  Lemma solo_train (b' : pyword -> M pstore unit) (b : pyword -> M sstore unit) l s h o :
    (forall w st, follows pin s_db (b' w) (b w) st) ->
    tracks (on_store (mbind (mfor l b') (fun _ => bk_post shared_backend s h)))
           (on_store (mbind (mfor l b) (fun _ => bk_post shelve_backend s h))) o.
  Proof.
    intros H. apply follows_on_store, follows_mbind; [by apply follows_mfor|].
    intros _ s1 _. apply solo_state.
  Qed.

  Lemma solo_learn s b o : tracks (learn shared_backend it s b) (learn shelve_backend it s b) o.
  Proof.
    unfold learn. destruct (o_bigrams o) as [bg|] eqn:Ebg.
    2:{ apply follows_local; [by rewrite Ebg|]. intros env. cbn [o_bigrams oin]. by rewrite Ebg. }
    set (ws := if bg then enhance s else elems s).
    set (n := (if b then o_nspam o + 1 else o_nspam o)%Z).
    set (m := (if b then o_nham o else o_nham o + 1)%Z).
    pose proof (solo_train (add_word shared_backend b) (add_word shelve_backend b) (it ws) n m
                  (with_counts (with_cache o ∅) n m) (solo_add_word b)) as H.
    eapply (track_after (fun o => with_counts (with_cache o ∅) n m)
                        (fun o => with_counts (with_cache o ∅) n m)) in H; [|done].
    eapply follows_ext; [..|exact H].
    - intros env. cbn [o_bigrams oin]. rewrite Ebg. by destruct bg, b.
    - cbn beta. rewrite Ebg. by destruct bg, b.
  Qed.

  Lemma solo_unlearn s b o : tracks (unlearn shared_backend it s b) (unlearn shelve_backend it s b) o.
  Proof.
    unfold unlearn. destruct (o_bigrams o) as [bg|] eqn:Ebg.
    2:{ apply follows_local; [by rewrite Ebg|]. intros env. cbn [o_bigrams oin]. by rewrite Ebg. }
    set (ws := if bg then enhance s else elems s).
    destruct (((if b then o_nspam o else o_nham o) <=? 0)%Z) eqn:Ez.
    { apply follows_local; [|intros env]; cbn [o_bigrams oin]; rewrite ?Ebg;
        destruct bg; unfold remove_msg; simpl; unfold oin; simpl; rewrite Ez; done. }
    set (n := (if b then o_nspam o - 1 else o_nspam o)%Z).
    set (m := (if b then o_nham o else o_nham o - 1)%Z).
    pose proof (solo_train (remove_word shared_backend b) (remove_word shelve_backend b) (it ws) n m
                  (with_counts (with_cache o ∅) n m) (solo_remove_word b)) as H.
    eapply (track_after (fun o => with_counts (with_cache o ∅) n m)
                        (fun o => with_counts (with_cache o ∅) n m)) in H; [|done].
    eapply follows_ext; [..|exact H].
    - intros env. cbn [o_bigrams oin]. rewrite Ebg. destruct bg; unfold remove_msg;
        cbn [with_cache o_nspam o_nham oin]; rewrite Ez; by destruct b.
    - cbn beta. rewrite Ebg. destruct bg; unfold remove_msg;
        cbn [with_cache o_nspam o_nham oin]; rewrite Ez; by destruct b.
  Qed.

  Lemma prob_not_paused ns nh r : prob_formula (A:=A) ns nh r <> Err PAUSED.
  Proof. unfold prob_formula. repeat (case_match; try done). Qed.

  Lemma solo_probability r o : tracks (probability r) (probability r) o.
  Proof.
    apply follows_local.
    - unfold probability. destruct (_ ≫= _); [done|].
      pose proof (prob_not_paused (o_nspam o) (o_nham o) r) as H. destruct (prob_formula _ _ _); [done|].
      simpl. congruence.
    - intros env. unfold probability, oin. cbn [o_cache o_nspam o_nham].
      destruct (_ ≫= _); [done|]. by destruct (prob_formula _ _ _).
  Qed.

  Lemma solo_wdg w o : tracks (worddistanceget shared_backend w) (worddistanceget shelve_backend w) o.
  Proof.
    unfold worddistanceget. apply follows_mbind.
    - apply follows_on_store, solo_get.
    - intros r s1 _. apply follows_mbind; [|intros; apply follows_mret].
      destruct r; [apply solo_probability|apply follows_mret].
  Qed.

  Lemma solo_pure {B : Type} (r : res B) o : r <> Err PAUSED -> tracks (fun o => (o, r)) (fun o => (o, r)) o.
  Proof. intros Hr. by apply follows_local. Qed.

  Lemma sort_not_paused (l : list (clue A)) : sort_clues l <> Err PAUSED.
  Proof. unfold sort_clues. by destruct (any_clash l). Qed.

  Lemma solo_bigram_raw l : forall i last pair acc o,
    tracks (bigram_raw shared_backend i last pair l acc) (bigram_raw shelve_backend i last pair l acc) o.
  Proof.
    assert (forall w idx acc o, tracks (consider shared_backend w idx acc) (consider shelve_backend w idx acc) o) as Hc.
    { intros w idx [seen raw] o. unfold consider. destruct (decide _); [apply follows_mret|].
      apply follows_mbind; [apply solo_wdg|]. intros; apply follows_mret. }
    induction l as [|x l IH]; intros; simpl; [apply follows_mret|].
    apply follows_mbind; [apply Hc|]. intros a1 s1 _. apply follows_mbind; [apply Hc|].
    intros a2 s2 _. apply IH.
  Qed.

  Lemma solo_clues s o : tracks (getclues shared_backend it s) (getclues shelve_backend it s) o.
  Proof.
    destruct (o_bigrams o) as [[|]|] eqn:Ebg.
    - eapply follows_ext; [..|apply (follows_mbind oin odb (bigram_raw shared_backend 0 WNone WNone (elems s) (∅, []))
        (bigram_raw shelve_backend 0 WNone WNone (elems s) (∅, [])))].
      + intros env. unfold getclues. cbn [o_bigrams oin]. rewrite Ebg. unfold getclues_bi. reflexivity.
      + unfold getclues. rewrite Ebg. reflexivity.
      + apply solo_bigram_raw.
      + intros a s1 _. apply solo_pure. unfold sort_raw_reverse. by destruct (any_clash _).
    - eapply follows_ext; [..|apply (follows_mbind oin odb (mmap (it (elems s)) (worddistanceget shared_backend))
        (mmap (it (elems s)) (worddistanceget shelve_backend)))].
      + intros env. unfold getclues. cbn [o_bigrams oin]. rewrite Ebg. unfold getclues_uni. reflexivity.
      + unfold getclues. rewrite Ebg. reflexivity.
      + apply follows_mmap, solo_wdg.
      + intros a s1 _. apply solo_pure. pose proof (sort_not_paused (List.filter significant a)) as H.
        destruct (sort_clues _); simpl; congruence.
    - apply follows_local; unfold getclues; [by rewrite Ebg|].
      intros env. cbn [o_bigrams oin]. by rewrite !Ebg.
  Qed.

  Lemma score_not_paused (ps : list (F A)) : score_probs A ps <> Err PAUSED.
  Proof.
    unfold score_probs, pylog. destruct (nlt _ _ _); [|done]. cbn [rbind].
    destruct (nlt _ _ _); [|done]. cbn [rbind]. destruct (0 <? _)%Z; [|done].
    unfold chi2Q. destruct (negb _); done.
  Qed.

  Lemma solo_score s o : tracks (spamprob_evidence shared_backend it s) (spamprob_evidence shelve_backend it s) o.
  Proof.
    unfold spamprob_evidence. apply follows_mbind; [apply solo_clues|].
    intros cs s1 _. apply solo_pure. pose proof (score_not_paused (c_prob <$> cs)) as H.
    destruct (score_probs _ _) as [[[p a] h]|]; simpl; congruence.
  Qed.

  Lemma solo_store o : tracks (shared_store it) (shelve_store it) o.
  Proof.
    pose proof (follows_on_store
      (mbind (fun '(st, env) => mfor (it (elements (s_changed st))) shared_changed (st, env)) (fun _ =>
       mbind (fun '(st, env) => mfor (it (elements (s_deleted st))) shared_deleted (st, env)) (fun _ =>
       mbind (own (fun st => (SStore (s_db st) (s_mem st) ∅ ∅ (s_log st), Ok tt))) (fun _ =>
       access (write_state_key (o_nspam o) (o_nham o))))))
      (mbind (fun st => mfor (it (elements (s_changed st))) store_changed st) (fun _ =>
       mbind (fun st => mfor (it (elements (s_deleted st))) store_deleted st) (fun _ =>
       mbind (fun st => (SStore (s_db st) (s_mem st) ∅ ∅ (s_log st), Ok tt)) (fun _ =>
       write_state_key (o_nspam o) (o_nham o))))) o) as H.
    eapply follows_ext; [..|apply H; clear H]; [done|done|].
    apply follows_mbind.
    { eapply follows_ext; [..|apply (follows_mfor pin s_db (it (elements (s_changed (o_store o))))
        shared_changed store_changed solo_changed)]; done. }
    intros _ s1 _. apply follows_mbind.
    { eapply follows_ext; [..|apply (follows_mfor pin s_db (it (elements (s_deleted s1)))
        shared_deleted store_deleted solo_deleted)]; done. }
    intros _ s2 _. apply follows_mbind; [by apply follows_own|].
    intros _ s3 _. apply solo_state.
  Qed.

  Lemma solo_load o : tracks shared_load (fun o => shelve_load (s_db (o_store o)) o) o.
  Proof.
    eapply follows_ext; [..|apply (follows_mbind oin odb (on_store (access (db_has STATE_KEY)))
      (on_store (db_has STATE_KEY))
      (fun there : bool =>
         if there
         then mbind (on_store (access (db_read STATE_KEY))) (fun v o =>
             match v with
             | DState v s h => if (v =? PICKLE_VERSION)%Z
                 then on_store (own (fun st => (SStore (s_db st) ∅ ∅ ∅ (s_log st), Ok tt))) (with_counts o s h)
                               else (o, Err ValueError)
             | DWord _ => (o, Err ValueError)
             end)
         else fun o => on_store (own (fun st => (SStore (s_db st) ∅ ∅ ∅ (s_log st), Ok tt))) (with_counts o 0 0))
      (fun there : bool =>
         if there
         then mbind (on_store (db_read STATE_KEY)) (fun v o =>
             match v with
             | DState v s h => if (v =? PICKLE_VERSION)%Z
                 then on_store (fun st => (SStore (s_db st) ∅ ∅ ∅ (s_log st), Ok tt)) (with_counts o s h)
                               else (o, Err ValueError)
             | DWord _ => (o, Err ValueError)
             end)
         else fun o => on_store (fun st => (SStore (s_db st) ∅ ∅ ∅ (s_log st), Ok tt)) (with_counts o 0 0)))].
    - done.
    - unfold shelve_load, mbind, on_store, db_has, db_read. cbn [o_store with_store].
      destruct (s_db (o_store o) !! STATE_KEY) as [[r|v s h]|] eqn:E.
      + rewrite bool_decide_eq_true_2 by eauto. cbn [with_store o_store]. rewrite ?E. destruct o as [? ? ? ? []]. done.
      + rewrite bool_decide_eq_true_2 by eauto. cbn [with_store o_store]. rewrite ?E. destruct (v =? _)%Z; destruct o as [? ? ? ? []]; done.
      + rewrite bool_decide_eq_false_2 by (intros [? ?]; congruence). destruct o as [? ? ? ? []]; done.
    - by apply follows_on_store, follows_access.
    - intros there s1 _. destruct there.
      + apply follows_mbind.
        { apply follows_on_store, follows_access. unfold db_read. simpl. by destruct (_ !! _). }
        intros v s2 _. destruct v as [r|v s h]; [by apply follows_local|].
        destruct (v =? PICKLE_VERSION)%Z; [|by apply follows_local].
        apply (track_after (fun o => with_counts o s h) (fun o => with_counts o s h)); [done|].
        by apply follows_on_store, follows_own.
      + apply (track_after (fun o => with_counts o 0 0) (fun o => with_counts o 0 0)); [done|].
        by apply follows_on_store, follows_own.
  Qed.
End objects.

Section programs.
  Context {A : num} (it : set_order).
  Notation sobj := (obj A sstore).
  Notation pobj := (obj A pstore).

  Lemma solo_op_of {B} (m' : M pobj B) (m : M sobj B) (f : res B -> outcome A) o :
    (forall r, unfinished (f r) = match r with Err e => bool_decide (e = PAUSED) | _ => false end) ->
    follows oin odb m' m o -> exists env,
    (forall n d, env !! n = Some d -> exists o1 r,
       (let '(o, r) := m' (oin o (take n env)) in (o, f r)) = (oin o1 [], r) /\
       unfinished r = true /\ odb o1 = d) /\
    (forall rest, (let '(o, r) := m' (oin o (env ++ rest)) in (o, f r)) =
                  (oin (fst (m o)) rest, f (snd (m o)))) /\
    unfinished (f (snd (m o))) = false.
  Proof.
    intros Hf (Hp&env&P&R). exists env. split; [|split].
    - intros n d Hn. destruct (P n d Hn) as (o1&E&Hd). exists o1, (f (Err PAUSED)).
      rewrite E, Hf. by rewrite bool_decide_eq_true_2.
    - intros rest. by rewrite R.
    - rewrite Hf. destruct (snd (m o)) as [|e]; [done|].
      apply bool_decide_eq_false_2. intros ->. by apply Hp.
  Qed.

  Lemma let_pair {X Y Z} (p : X * Y) (f : Y -> Z) :
    (let '(x, y) := p in (x, f y)) = (fst p, f (snd p)).
  Proof. by destruct p. Qed.

  Lemma reopen_eq (o : sobj) : run_sop it SReopen o =
    (let '(o, r) := (fun o => shelve_load (s_db (o_store o)) o)
         (c_new false (SStore (s_db (o_store o)) ∅ ∅ ∅ (s_log (o_store o)))) in (o, ODone r)).
  Proof.
    unfold run_sop, shelve_open, shelve_load. cbn [o_store c_new s_db s_log].
    destruct (s_db (o_store o) !! STATE_KEY) as [[r|v s h]|]; [|destruct (v =? _)%Z|];
      cbn; by rewrite app_nil_r.
  Qed.

  Lemma solo_op x (o : sobj) : exists env,
    (forall n d, env !! n = Some d -> exists o1 r,
       run_shared_op it x (oin o (take n env)) = (oin o1 [], r) /\ unfinished r = true /\ odb o1 = d) /\
    (forall rest, run_shared_op it x (oin o (env ++ rest)) =
                  (oin (fst (run_sop it x o)) rest, snd (run_sop it x o))) /\
    unfinished (snd (run_sop it x o)) = false.
  Proof.
    destruct x as [[s b|s b|s]| | |].
    - destruct (solo_op_of _ _ ODone o (fun r => eq_refl) (solo_learn it s b o)) as (env&P&R&U).
      exists env. cbn [run_shared_op run_sop run_call]. rewrite let_pair. done.
    - destruct (solo_op_of _ _ ODone o (fun r => eq_refl) (solo_unlearn it s b o)) as (env&P&R&U).
      exists env. cbn [run_shared_op run_sop run_call]. rewrite let_pair. done.
    - destruct (solo_op_of _ _ OScore o (fun r => eq_refl) (solo_score it s o)) as (env&P&R&U).
      exists env. cbn [run_shared_op run_sop run_call]. rewrite let_pair. done.
    - destruct (solo_op_of _ _ ODone o (fun r => eq_refl) (solo_store it o)) as (env&P&R&U).
      exists env. cbn [run_shared_op run_sop]. rewrite let_pair. done.
    - destruct (solo_op_of _ _ ODone o (fun r => eq_refl) (solo_load o)) as (env&P&R&U).
      exists env. cbn [run_shared_op run_sop]. rewrite let_pair. done.
    - destruct (solo_op_of _ _ ODone _ (fun r => eq_refl)
        (solo_load (c_new false (SStore (s_db (o_store o)) ∅ ∅ ∅ (s_log (o_store o)))))) as (env&P&R&U).
      exists env. rewrite reopen_eq, let_pair. done.
  Qed.

  Lemma solo_run xs : forall (o : sobj), exists env,
    (forall n d, env !! n = Some d -> exists o1 rs,
       run_shared it xs (oin o (take n env)) = (oin o1 [], rs) /\ odb o1 = d /\
       (length rs < length xs) /\ rs `prefix_of` snd (run_sops it xs o)) /\
    (forall rest, run_shared it xs (oin o (env ++ rest)) =
                  (oin (fst (run_sops it xs o)) rest, snd (run_sops it xs o))).
  Proof.
    induction xs as [|x xs IH]; intros o.
    { exists []. split; [intros n d; by rewrite lookup_nil|done]. }
    destruct (solo_op x o) as (env1&P1&R1&U1). cbn [run_shared run_sops].
    destruct (run_sop it x o) as [o1 r1] eqn:E1. cbn [fst snd] in R1, U1.
    destruct (IH o1) as (env2&P2&R2). exists (env1 ++ env2). split.
    - intros n d Hn. destruct (decide (n < length env1)) as [Hlt|Hge].
      + rewrite lookup_app_l in Hn by done. rewrite take_app_le by lia.
        destruct (P1 n d Hn) as (o2&r2&E&Hr&Hd). exists o2, []. rewrite E, Hr.
        split; [done|]. split; [done|]. split; [simpl; lia|apply prefix_nil].
      + rewrite lookup_app_r in Hn by lia. rewrite take_app_ge by lia.
        destruct (P2 _ d Hn) as (o2&rs&E&Hd&Hl&Hpre). exists o2, (r1 :: rs). rewrite R1, U1, E.
        split; [done|]. split; [done|]. split; [simpl; lia|].
        destruct (run_sops it xs o1). by apply prefix_cons.
    - intros rest. rewrite <- app_assoc, R1, U1, R2. destruct (run_sops it xs o1). done.
  Qed.

  Notation world := ShareModel.world.

  Lemma process_start xs d0 d seen :
    process (A:=A) it xs (d :: seen) =
    run_shared it (SReopen :: xs) (oin (c_new false (SStore d0 ∅ ∅ ∅ [])) (d :: seen)).
  Proof. reflexivity. Qed.

  Lemma run_sops_length xs : forall (o : sobj), length (snd (run_sops it xs o)) = length xs.
  Proof.
    induction xs as [|x xs IH]; intros o; [done|]. simpl. destruct (run_sop it x o) as [o1 r1].
    specialize (IH o1). destruct (run_sops it xs o1). simpl in *. lia.
  Qed.

  Lemma alone (w : world) i xs : w_procs w !! i = Some (xs, []) ->
    let o := fst (shelve_open (A:=A) (w_db w)) in
    exists n seen,
    (forall m, m < n -> finished (A:=A) it (foldl (step (A:=A) it) w (replicate m i)) i = false) /\
    (forall m, n <= m -> foldl (step (A:=A) it) w (replicate m i) =
      World (s_db (o_store (fst (run_sops it xs o)))) (<[i := (xs, seen)]> (w_procs w))) /\
    snd (process it xs seen) = ODone (snd (shelve_open (A:=A) (w_db w))) :: snd (run_sops it xs o).
  Proof.
    intros Hi o. set (d := w_db w).
    set (o0 := c_new false (SStore d ∅ ∅ ∅ []) : sobj).
    destruct (solo_run (SReopen :: xs) o0) as (env&P&R).
    assert (run_sops it (SReopen :: xs) o0 =
      (fst (run_sops it xs o), ODone (snd (shelve_open (A:=A) d)) :: snd (run_sops it xs o))) as Erun.
    { cbn [run_sops]. rewrite reopen_eq. unfold o, shelve_open. fold d. cbn [o_store c_new s_db s_log o0].
      destruct (shelve_load d _) as [o2 r2] eqn:E2. cbn [fst snd].
      destruct (run_sops it xs o2) eqn:E3. done. }
    rewrite Erun in R. cbn [fst snd] in R.
    assert (0 < length env) as Hpos.
    { destruct env; [|simpl; lia]. exfalso. pose proof (R []) as R0. cbn in R0. done. }
    assert (forall seen, seen <> [] -> process (A:=A) it xs seen =
      run_shared it (SReopen :: xs) (oin o0 seen)) as Hproc.
    { intros [|d1 seen1] Hs; [done|]. apply process_start. }
    assert (forall n, 0 < n -> take n env <> []) as Hne.
    { intros [|n] Hn; [lia|]. destruct env; [simpl in Hpos; lia|done]. }
    assert (forall n, n <= length env -> exists dn,
      foldl (step (A:=A) it) w (replicate n i) = World dn (<[i := (xs, take n env)]> (w_procs w)) /\
      (n < length env -> env !! n = Some dn) /\
      (0 < n -> n = length env -> dn = s_db (o_store (fst (run_sops it xs o))))) as Hall.
    { induction n as [|n IH]; intros Hn.
      - exists d. simpl. rewrite take_0, list_insert_id by done. split; [by destruct w|].
        split; [|lia]. intros Hlt. destruct (lookup_lt_is_Some_2 env 0 Hlt) as [e He].
        destruct (P 0 e He) as (o1&rs&E&Hd&_). rewrite take_0 in E.
        rewrite He. f_equal. rewrite <- Hd. symmetry.
        exact (f_equal (fun p => s_db (fst (o_store (fst p)))) E).
      - destruct IH as (dn&E&Hmid&_); [lia|].
        pose proof (Hmid ltac:(lia)) as Hdn.
        replace (S n) with (n + 1) by lia. rewrite replicate_add, foldl_app, E.
        cbn [replicate foldl]. unfold step at 1. cbn [w_procs w_db].
        rewrite list_lookup_insert by (by eapply lookup_lt_Some).
        replace (n + 1) with (S n) by lia. rewrite <- (take_S_r env n dn) by done.
        rewrite Hproc by (apply Hne; lia).
        destruct (decide (S n < length env)) as [Hlt|Hge].
        + destruct (lookup_lt_is_Some_2 env (S n) Hlt) as [e He].
          destruct (P (S n) e He) as (o1&rs&E1&Hd&_). rewrite E1. exists e.
          cbn [fst o_store oin]. fold (odb o1). rewrite Hd, list_insert_insert.
          split; [done|]. split; [done|lia].
        + pose proof (R []) as R0. rewrite app_nil_r in R0. rewrite take_ge by lia.
          rewrite R0. cbn [fst o_store oin]. eexists. rewrite list_insert_insert.
          split; [done|]. split; [lia|done]. }
    assert (env <> []) as Hne' by (intros ->; simpl in Hpos; lia).
    exists (length env), env. split; [|split].
    - intros m Hm. destruct (Hall m) as (dn&E&_&_); [lia|]. rewrite E.
      unfold finished, outcomes. cbn [w_procs].
      rewrite list_lookup_insert by (by eapply lookup_lt_Some).
      apply Nat.eqb_neq. destruct (lookup_lt_is_Some_2 env m Hm) as [e He].
      destruct (P m e He) as (o1&rs&E1&_&Hl&_). simpl in Hl.
      destruct (decide (m = 0)) as [->|Hm0]; [rewrite take_0; by assert (snd (process (A:=A) it xs []) = []) as -> by reflexivity|].
      rewrite Hproc by (apply Hne; lia). rewrite E1. simpl. lia.
    - intros m Hm. replace m with (length env + (m - length env)) by lia.
      rewrite replicate_add, foldl_app.
      destruct (Hall (length env)) as (dn&E&_&Hend); [lia|].
      rewrite E, Hend, take_ge by (done || lia).
      induction (m - length env) as [|k IH]; [done|]. cbn [replicate foldl].
      unfold step at 2. cbn [w_procs w_db].
      rewrite list_lookup_insert by (by eapply lookup_lt_Some).
      rewrite Hproc by (by destruct env). rewrite R. exact IH.
    - rewrite Hproc by done. specialize (R []). rewrite app_nil_r in R. by rewrite R.
  Qed.

  Lemma steps_other i n : forall (w : world) (j : nat), i <> j ->
    w_procs (foldl (step (A:=A) it) w (replicate n i)) !! j = w_procs w !! j.
  Proof.
    induction n as [|n IH]; intros w j Hne; [done|]. simpl. rewrite IH by done. unfold step.
    destruct (w_procs w !! i) as [[xs seen]|]; [|done].
    destruct (o_store _) as [st [|d env]]; [|done]. cbn [w_procs]. by rewrite list_lookup_insert_ne.
  Qed.

  (** The database after the process has done all of its operations alone. *)
  Definition after (d : database) (xs : list sop) : database :=
    s_db (o_store (fst (run_sops it xs (fst (shelve_open (A:=A) d))))).

  Definition blocks (k : nat) (ns : list nat) : list nat :=
    concat (imap (fun i n => replicate n (k + i)) ns).

  Lemma blocks_cons k n ns : blocks k (n :: ns) = replicate n k ++ blocks (S k) ns.
  Proof.
    unfold blocks. cbn [imap concat]. rewrite Nat.add_0_r. f_equal. f_equal.
    apply imap_ext. intros i x _. cbn. by rewrite Nat.add_succ_r.
  Qed.

  Lemma blocks_other ns : forall k (w : world) (j : nat), (j < k) ->
    w_procs (foldl (step (A:=A) it) w (blocks k ns)) !! j = w_procs w !! j.
  Proof.
    induction ns as [|n ns IH]; intros k w j Hj; [done|].
    rewrite blocks_cons, foldl_app, IH by lia. apply steps_other. lia.
  Qed.

  Lemma finished_same (w w' : world) i : w_procs w !! i = w_procs w' !! i ->
    finished (A:=A) it w i = finished (A:=A) it w' i /\ outcomes (A:=A) it w i = outcomes (A:=A) it w' i.
  Proof. intros E. unfold finished, outcomes. by rewrite E. Qed.

  Lemma turns_from progs : forall ns k (w : world), length ns = length progs ->
    (forall i xs, progs !! i = Some xs -> w_procs w !! (k + i) = Some (xs, [])) ->
    let w' := foldl (step (A:=A) it) w (blocks k ns) in
    (forall i xs, progs !! i = Some xs -> finished (A:=A) it w' (k + i) = true) ->
    w_db w' = foldl after (w_db w) progs /\
    forall i xs, progs !! i = Some xs ->
      let d := foldl after (w_db w) (take i progs) in
      outcomes (A:=A) it w' (k + i) =
        ODone (snd (shelve_open (A:=A) d)) :: snd (run_sops it xs (fst (shelve_open (A:=A) d))).
  Proof.
    induction progs as [|xs progs IH]; intros [|n ns] k w Hl Hw w' Hf; try done.
    revert Hf. unfold w'. clear w'. rewrite blocks_cons, foldl_app.
    set (w1 := foldl _ w (replicate n k)). set (w2 := foldl _ w1 (blocks (S k) ns)). intros Hf.
    pose proof (Hw 0 xs eq_refl) as H0. rewrite Nat.add_0_r in H0.
    destruct (alone w k xs H0) as (n0&seen&Hlt&Hge&Ho).
    assert (w_procs w2 !! k = w_procs w1 !! k) as Ek by (apply blocks_other; lia).
    destruct (finished_same _ _ _ Ek) as [Ef Eo].
    assert (finished (A:=A) it w1 k = true) as Hf1.
    { rewrite <- Ef. specialize (Hf 0 xs eq_refl). by rewrite Nat.add_0_r in Hf. }
    assert (w1 = World (after (w_db w) xs) (<[k := (xs, seen)]> (w_procs w))) as E1.
    { destruct (decide (n < n0)) as [Hn|Hn]; [unfold w1 in Hf1; rewrite Hlt in Hf1; done|].
      apply Hge. lia. }
    destruct (IH ns (S k) w1) as [Hd Hout].
    - simpl in Hl. lia.
    - intros i ys Hi. rewrite E1. cbn [w_procs]. rewrite list_lookup_insert_ne by lia.
      replace (S k + i) with (k + S i) by lia. by apply (Hw (S i)).
    - intros i ys Hi. replace (S k + i) with (k + S i) by lia. by apply (Hf (S i) ys).
    - fold w2 in Hd, Hout. rewrite E1 in Hd, Hout. cbn [w_db] in Hd, Hout.
      split; [exact Hd|]. intros [|i] ys Hi.
      + simpl in Hi. injection Hi as <-. rewrite Nat.add_0_r, Eo, E1. unfold outcomes. cbn [w_procs].
        rewrite list_lookup_insert by (by eapply lookup_lt_Some). exact Ho.
      + replace (k + S i) with (S k + i) by lia. by apply Hout.
  Qed.

  Lemma turns (d : database) (progs : list (list sop)) (ns : list nat) : length ns = length progs ->
    let w := together (A:=A) it d progs (concat (imap (fun i n => replicate n i) ns)) in
    (forall i, i < length progs -> finished (A:=A) it w i = true) ->
    w_db w = foldl after d progs /\
    forall i xs, progs !! i = Some xs ->
      let d := foldl after d (take i progs) in
      outcomes (A:=A) it w i =
        ODone (snd (shelve_open (A:=A) d)) :: snd (run_sops it xs (fst (shelve_open (A:=A) d))).
  Proof.
    intros Hl w Hf.
    refine (turns_from progs ns 0 (World d ((fun xs => (xs, [])) <$> progs)) Hl _ _).
    - intros i xs Hi. cbn [w_procs Nat.add]. by rewrite list_lookup_fmap, Hi.
    - intros i xs Hi. apply Hf. by eapply lookup_lt_Some.
  Qed.
End programs.
