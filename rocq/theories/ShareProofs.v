(** * Processes sharing a database: invariants under interference *)
From Coq Require Import String Lia.
From Verif Require Import Py NumModel ClassifierModel TrainSpec TrainProofs SortProofs ShelveModel ShelveSpec
  ShelveProofs ShelveRunProofs ShareModel ShareSpec.

Record pinv (st : sstore) : Prop := {
  p_db : wf_db (s_db st);
  p_mem : forall w r, s_mem st !! w = Some r -> plain w /\ wf_record r;
  p_changed : forall w, w ∈ s_changed st -> exists r, s_mem st !! w = Some r /\ (2 <= wtotal r)%Z;
  p_deleted : forall w, w ∈ s_deleted st -> plain w /\ s_mem st !! w = None
}.

Section rg.
  (** Nobody unlearns. *)
  Context (G : Prop).

  (** The totals are never deleted, and no word if nobody unlearns. *)
  Definition grows (d1 d2 : database) : Prop :=
    forall k, (G \/ k = STATE_KEY) -> is_Some (d1 !! k) -> is_Some (d2 !! k).

  Definition ready (st : sstore) (env : list database) : Prop :=
    pinv st /\ Forall wf_db env /\ StronglySorted grows env /\ (G -> s_deleted st = ∅).

  Definition moved (st : sstore) (env : list database) (st' : sstore) (env' : list database) : Prop :=
    exists used, env = used ++ env' /\ grows (default (s_db st) (last used)) (s_db st').

  Lemma moved_refl st env : moved st env st env.
  Proof. exists []. split; [done|]. by intros k. Qed.

  Lemma moved_trans st1 env1 st2 env2 st3 env3 :
    moved st1 env1 st2 env2 -> moved st2 env2 st3 env3 -> moved st1 env1 st3 env3.
  Proof.
    intros (u1&->&H1) (u2&->&H2). exists (u1 ++ u2). split; [by rewrite app_assoc|].
    destruct u2 as [|d u2] using rev_ind.
    - rewrite app_nil_r. simpl in H2. intros k Hk Hs. by apply H2, H1.
    - rewrite app_assoc, last_snoc. rewrite last_snoc in H2. exact H2.
  Qed.

  Definition rg {B : Type} (P : sstore -> Prop) (m : M pstore B) (E : exn -> Prop)
      (Q : B -> sstore -> Prop) : Prop :=
    forall st env, ready st env -> P st -> exists st' env' r,
      m (st, env) = ((st', env'), r) /\ ready st' env' /\ moved st env st' env' /\
      match r with Ok a => Q a st' | Err e => E e end.

  (** The process pauses, or somebody deleted a word at the wrong moment. *)
  Definition soft (e : exn) : Prop := e = PAUSED \/ (e = KeyError /\ ~ G).

  Lemma rg_mret {B : Type} (P : sstore -> Prop) (b : B) (E : exn -> Prop) (Q : B -> sstore -> Prop) :
    (forall st, P st -> Q b st) -> rg P (mret b) E Q.
  Proof. intros H st env Hr Hp. exists st, env, (Ok b). split_and!; [done|done|apply moved_refl|auto]. Qed.

  Lemma rg_mbind {B C : Type} (P : sstore -> Prop) (m : M pstore B) (k : B -> M pstore C)
      (E : exn -> Prop) (Q : B -> sstore -> Prop) (R : C -> sstore -> Prop) :
    rg P m E Q -> (forall a, rg (Q a) (k a) E R) -> rg P (mbind m k) E R.
  Proof.
    intros Hm Hk st env Hr Hp. destruct (Hm st env Hr Hp) as (st1&env1&r1&E1&R1&M1&Q1).
    unfold mbind. rewrite E1. destruct r1 as [a|e].
    - destruct (Hk a st1 env1 R1 Q1) as (st2&env2&r2&E2&R2&M2&Q2).
      exists st2, env2, r2. split_and!; [done|done|by eapply moved_trans|done].
    - exists st1, env1, (Err e). done.
  Qed.

  Lemma rg_conseq {B : Type} (P P' : sstore -> Prop) (m : M pstore B) (E E' : exn -> Prop) (Q Q' : B -> sstore -> Prop) :
    (forall st, P' st -> P st) -> (forall e, E e -> E' e) -> (forall a st, Q a st -> Q' a st) ->
    rg P m E Q -> rg P' m E' Q'.
  Proof.
    intros HP HE HQ H st env Hr Hp. destruct (H st env Hr (HP st Hp)) as (st'&env'&r&E1&R1&M1&Q1).
    exists st', env', r. split_and!; [done..|]. destruct r; auto.
  Qed.

  Lemma rg_mfor {T : Type} (P : sstore -> Prop) (l : list T) (b : T -> M pstore unit) (E : exn -> Prop) :
    (forall x, x ∈ l -> rg P (b x) E (fun _ => P)) -> rg P (mfor l b) E (fun _ => P).
  Proof.
    induction l as [|x l IH]; intros H; simpl; [by apply rg_mret|].
    eapply rg_mbind; [apply H; by left|]. intros []. apply IH. intros y Hy. apply H. by right.
  Qed.

  (** One operation on a well-kept database. *)
  Lemma rg_access {B : Type} (P : sstore -> Prop) (m : M sstore B) (E : exn -> Prop) (Q : B -> sstore -> Prop) :
    E PAUSED ->
    (forall st d, pinv (SStore d (s_mem st) (s_changed st) (s_deleted st) (s_log st)) -> P st ->
       exists st' r, m (SStore d (s_mem st) (s_changed st) (s_deleted st) (s_log st)) = (st', r) /\
         pinv st' /\ (G -> s_deleted st = ∅ -> s_deleted st' = ∅) /\ grows d (s_db st') /\
         match r with Ok a => Q a st' | Err e => E e end) ->
    rg P (access m) E Q.
  Proof.
    intros Hpause H st env (Hi&He&Hs&Hg) Hp. unfold access. destruct env as [|d env].
    { exists st, [], (Err PAUSED). split_and!; [done|done|apply moved_refl|done]. }
    apply Forall_cons in He as [Hd He].
    destruct (H st d) as (st'&r&E1&I1&G1&W1&Q1); [|done|].
    { destruct Hi as [_ H2 H3 H4]. by constructor. }
    rewrite E1. exists st', env, r. split_and!; [done| | |done].
    - split; [done|]. split; [done|]. apply StronglySorted_inv in Hs as [Hs _]. auto.
    - by exists [d].
  Qed.

  Lemma rg_own {B : Type} (P : sstore -> Prop) (m : M sstore B) (E : exn -> Prop) (Q : B -> sstore -> Prop) :
    (forall st, pinv st -> P st -> exists st' r, m st = (st', r) /\ pinv st' /\
       (G -> s_deleted st = ∅ -> s_deleted st' = ∅) /\ s_db st' = s_db st /\
       match r with Ok a => Q a st' | Err e => E e end) ->
    rg P (own m) E Q.
  Proof.
    intros H st env (Hi&He&Hs&Hg) Hp. unfold own.
    destruct (H st Hi Hp) as (st'&r&E1&I1&G1&D1&Q1). rewrite E1.
    exists st', env, r. split_and!; [done| | |done].
    - split; [done|]. split; [done|]. auto.
    - exists []. split; [done|]. intros k. simpl. by rewrite D1.
  Qed.

  Lemma rg_get w : plain w ->
    rg (fun _ => True) (shared_get w) soft
       (fun ro st => match ro with Some r => s_mem st !! w = Some r | None => True end).
  Proof.
    intros Hp st env Hr _. destruct (plain_key w Hp) as (s&->&Hk&Hs).
    unfold shared_get. rewrite Hk. destruct (s_mem st !! WStr s) as [r|] eqn:Em.
    { exists st, env, (Ok (Some r)). split_and!; [done|done|apply moved_refl|done]. }
    destruct (decide (WStr s ∈ s_deleted st)).
    { exists st, env, (Ok None). split_and!; [done|done|apply moved_refl|done]. }
    destruct Hr as (Hi&He&HS&Hg). unfold mbind, access, db_has.
    destruct env as [|d1 env]; cbn [s_db].
    { exists st, [], (Err PAUSED). split_and!; [done|done|apply moved_refl|by left]. }
    apply Forall_cons in He as [Hd1 He].
    destruct (bool_decide (is_Some (d1 !! s))) eqn:Ein.
    2:{ eexists _, env, (Ok None). split_and!; [done| | |done].
        - split; [|split; [done|]].
          + destruct Hi as [_ H2 H3 H4]. by constructor.
          + apply StronglySorted_inv in HS as [HS _]. auto.
        - exists [d1]. split; [done|]. by intros k. }
    apply bool_decide_eq_true in Ein.
    destruct env as [|d2 env]; cbn [s_db s_mem s_changed s_deleted s_log].
    { eexists _, [], (Err PAUSED). split_and!; [done| | |by left].
      - split; [|split; [done|]].
        + destruct Hi as [_ H2 H3 H4]. by constructor.
        + split; [constructor|auto].
      - exists [d1]. split; [done|]. by intros k. }
    apply Forall_cons in He as [Hd2 He].
    assert (pinv (SStore d2 (s_mem st) (s_changed st) (s_deleted st) (s_log st))) as Hi2.
    { destruct Hi as [_ H2 H3 H4]. by constructor. }
    assert (StronglySorted grows env) as Hsort.
    { apply StronglySorted_inv in HS as [S1 _]. by apply StronglySorted_inv in S1 as [? _]. }
    unfold db_read. cbn [s_db]. destruct (d2 !! s) as [[r|v a b]|] eqn:E2; cbn.
    - eexists _, env, (Ok (Some r)). split_and!; [done| | |cbn; by rewrite lookup_insert].
      + split; [|split; [done|]].
        * destruct Hi2 as [H1 H2 H3 H4]. cbn in *. constructor; cbn; [done|..].
          -- intros w r'. destruct (decide (w = WStr s)) as [->|Hne].
             ++ rewrite lookup_insert. intros [= <-]. split; [done|]. by apply (d_rec _ Hd2) in E2 as [? _].
             ++ rewrite lookup_insert_ne by done. apply H2.
          -- intros w Hw. destruct (H3 w Hw) as (r'&E&?). exists r'. split; [|done].
             destruct (decide (w = WStr s)) as [->|Hne]; [congruence|]. by rewrite lookup_insert_ne.
          -- intros w Hw. destruct (H4 w Hw) as [??]. split; [done|].
             destruct (decide (w = WStr s)) as [->|Hne]; [done|]. by rewrite lookup_insert_ne.
        * auto.
      + exists [d1; d2]. split; [done|]. by intros k.
    - apply (d_state _ Hd2) in E2 as [-> _]. done.
    - eexists _, env, (Err KeyError). split_and!; [done| | |].
      + split; [done|]. split; [done|]. auto.
      + exists [d1; d2]. split; [done|]. by intros k.
      + right. split; [done|]. intros g.
        apply StronglySorted_inv in HS as [_ S1]. apply Forall_cons in S1 as [S1 _].
        destruct (S1 s (or_introl g) Ein) as [x Ex]. congruence.
  Qed.

  Lemma soft_paused : soft PAUSED.
  Proof. by left. Qed.

  Lemma rg_set w r : plain w -> wf_record r ->
    rg (fun st => (wtotal r <= 1)%Z \/ is_Some (s_mem st !! w)) (shared_set w r) soft (fun _ _ => True).
  Proof.
    intros Hp Hr. unfold shared_set. destruct (plain_key w Hp) as (s&->&Hk&Hs). fold (wtotal r).
    destruct (Z.leb_spec (wtotal r) 1) as [Hle|Hgt].
    - rewrite Hk. apply rg_access; [apply soft_paused|]. intros st d [H1 H2 H3 H4] _.
      unfold shelve_set. fold (wtotal r). rewrite (proj2 (Z.leb_le _ _) Hle), Hk. cbn in *.
      eexists _, (Ok tt). split; [done|]. split; [constructor; cbn|split; [cbn|split; [cbn|done]]].
      + by apply wf_db_put.
      + intros w r'. rewrite lookup_delete_Some. intros [_ E]. by apply H2.
      + intros w Hw. destruct (H3 w) as (r'&E&?); [set_solver|]. exists r'. split; [|done].
        rewrite lookup_delete_ne by set_solver. done.
      + intros w Hw. destruct (H4 w) as [??]; [set_solver|]. split; [done|].
        rewrite lookup_delete_None. by right.
      + intros _ ->. set_solver.
      + intros k _ Hk'. destruct (decide (k = s)) as [->|Hne]; [rewrite lookup_insert|rewrite lookup_insert_ne by done]; eauto.
    - apply rg_own. intros st [H1 H2 H3 H4] Hpre. unfold shelve_set. fold (wtotal r).
      rewrite (proj2 (Z.leb_gt _ _) Hgt). eexists _, (Ok tt). split; [done|].
      destruct Hpre as [?|[r0 Em]]; [lia|].
      split; [constructor; cbn|split; [by cbn|done]].
      + done.
      + intros w r'. destruct (decide (w = WStr s)) as [->|Hne].
        * rewrite lookup_insert. by intros [= <-].
        * rewrite lookup_insert_ne by done. apply H2.
      + intros w Hw. destruct (decide (w = WStr s)) as [->|Hne].
        * rewrite lookup_insert. exists r. split; [done|lia].
        * rewrite lookup_insert_ne by done. apply H3. set_solver.
      + intros w Hw. destruct (H4 w Hw) as [??]. split; [done|].
        rewrite lookup_insert_ne; [done|]. intros <-. congruence.
  Qed.

  Lemma rg_inv {B : Type} (P : sstore -> Prop) (m : M pstore B) (E : exn -> Prop) (Q : B -> sstore -> Prop) :
    rg (fun st => P st /\ pinv st) m E Q -> rg P m E Q.
  Proof. intros H st env Hr Hp. apply H; [done|]. split; [done|apply Hr]. Qed.

  Lemma rg_any {B : Type} (P : sstore -> Prop) (m : M pstore B) (E : exn -> Prop) (Q : B -> sstore -> Prop) :
    (forall st, pinv st -> P st -> rg (fun st' => st' = st) m E Q) -> rg P m E Q.
  Proof. intros H st env Hr Hp. by apply (H st (proj1 Hr) Hp). Qed.

  Lemma rg_add_word b w : plain w ->
    rg (fun _ => True) (add_word shared_backend b w) soft (fun _ _ => True).
  Proof.
    intros Hp. unfold add_word. cbn [bk_get bk_set shared_backend].
    eapply rg_mbind; [by apply rg_get|]. intros ro.
    apply rg_any. intros st Hi Hro.
    set (r := match ro with None => wi_new | Some r => r end).
    assert (wf_record r \/ r = wi_new /\ ro = None) as Hr.
    { unfold r. destruct ro as [r0|]; [left; by apply (p_mem st Hi) in Hro as [_ ?]|by right]. }
    eapply rg_conseq; [| |done|apply rg_set; [done|]].
    - intros st' ->. destruct Hr as [Hr|[-> ->]].
      + destruct ro as [r0|]; [right; rewrite Hro; by eexists|].
        left. unfold r, wtotal. destruct b; simpl; lia.
      + left. unfold wtotal. destruct b; simpl; lia.
    - done.
    - destruct Hr as [Hr|[-> ->]]; [|destruct b; unfold wf_record; simpl; lia].
      unfold wf_record in *. destruct b; simpl; lia.
  Qed.

  Lemma rg_remove_word b w : ~ G -> plain w ->
    rg (fun _ => True) (remove_word shared_backend b w) soft (fun _ _ => True).
  Proof.
    intros HG Hp. unfold remove_word. cbn [bk_get bk_set bk_del shared_backend].
    eapply rg_mbind; [by apply rg_get|]. intros [r|]; [|by apply rg_mret].
    apply rg_any. intros st Hi Hro.
    change (if b then if (0 <? spamcount r)%Z then WI (spamcount r - 1) (hamcount r) else r
            else if (0 <? hamcount r)%Z then WI (spamcount r) (hamcount r - 1) else r)
      with (unbump b r).
    change ((hamcount (unbump b r) =? 0)%Z && (spamcount (unbump b r) =? 0)%Z)
      with (is_zero (unbump b r)).
    destruct (p_mem st Hi w r Hro) as [_ Hr].
    pose proof (wf_unbump_opt b (Some r) (unbump b r)) as Hub. unfold unbump_opt in *.
    destruct (is_zero (unbump b r)) eqn:Ez.
    - apply rg_own. intros st' [H1 H2 H3 H4] ->. unfold shelve_del. rewrite Hro.
      eexists _, (Ok tt). split; [done|]. split; [constructor; cbn|done].
      + done.
      + intros w' r'. rewrite lookup_delete_Some. intros [_ E]. by apply H2.
      + intros w' Hw. destruct (H3 w' Hw) as (r'&E'&Ht). exists r'. split; [|done].
        rewrite lookup_delete_ne; [done|]. intros <-. rewrite Hro in E'. injection E' as <-.
        apply is_zero_spec in Ez as [Z1 Z2]. unfold wtotal in Ht. unfold unbump in Z1, Z2. unfold wf_record in Hr.
        destruct b; [destruct (Z.ltb_spec 0 (spamcount r))|destruct (Z.ltb_spec 0 (hamcount r))];
          simpl in *; lia.
      + intros w' Hw. rewrite lookup_delete_None.
        destruct (decide (w' = w)) as [->|Hne]; [by auto|].
        destruct (H4 w') as [??]; [set_solver|]. auto.
    - eapply rg_conseq; [| |done|apply rg_set; [done|]].
      + intros st' ->. right. by eexists.
      + done.
      + apply Hub; [|done]. by intros r0 [= <-].
  Qed.

  Lemma rg_state s h : (0 <= s)%Z -> (0 <= h)%Z ->
    rg (fun _ => True) (access (write_state_key s h)) (fun e => e = PAUSED) (fun _ _ => True).
  Proof.
    intros Hs Hh. apply rg_access; [done|]. intros st d [H1 H2 H3 H4] _.
    eexists _, (Ok tt). split; [done|]. split; [constructor; cbn; try done; by apply wf_db_state|].
    split; [done|]. split; [|done]. intros k _ Hk. cbn.
    destruct (decide (k = STATE_KEY)) as [->|Hne]; [rewrite lookup_insert|rewrite lookup_insert_ne by done]; eauto.
  Qed.

  (** The attributes outside the database are as given. *)
  Definition kept (mem : gmap pyword winfo) (ch del : gset pyword) (st : sstore) : Prop :=
    s_mem st = mem /\ s_changed st = ch /\ s_deleted st = del.

  Definition just_paused (e : exn) : Prop := e = PAUSED.

  Lemma rg_changed mem ch del w : w ∈ ch ->
    rg (kept mem ch del) (shared_changed w) just_paused (fun _ => kept mem ch del).
  Proof.
    intros Hw st env Hr Hkept. pose proof Hkept as (Kmem&Kch&Kdel). pose proof Hr as ([H1 H2 H3 H4]&He&HS&Hg).
    rewrite <- Kch in Hw.
    destruct (H3 w Hw) as (r&Em&Ht). destruct (H2 w r Em) as [Hp Hwf].
    destruct (plain_key w Hp) as (s&->&Hk&Hs).
    assert (rg (kept mem ch del) (access (db_write (DPut s (DWord r))))
              just_paused (fun _ => kept mem ch del)) as H.
    { apply rg_access; [done|]. intros st' d [I1 I2 I3 I4] E. eexists _, (Ok tt). split; [done|].
      split; [constructor; cbn; try done; by apply wf_db_put|]. split; [done|]. split; [|done].
      intros k _ Hk'. cbn.
      destruct (decide (k = s)) as [->|Hne]; [rewrite lookup_insert|rewrite lookup_insert_ne by done]; eauto. }
    destruct (H st env Hr Hkept) as (st'&env'&r'&E'&X). exists st', env', r'.
    split; [|exact X]. unfold shared_changed. rewrite Em, Hk. exact E'.
  Qed.

  Lemma rg_deleted mem ch del w : w ∈ del ->
    rg (kept mem ch del) (shared_deleted w) just_paused (fun _ => kept mem ch del).
  Proof.
    intros Hw st env Hr Hkept. pose proof Hkept as (Kmem&Kch&Kdel). pose proof Hr as ([H1 H2 H3 H4]&He&HS&Hg).
    rewrite <- Kdel in Hw. destruct (H4 w Hw) as [Hp Em].
    destruct (plain_key w Hp) as (s&->&Hk&Hs).
    assert (rg (kept mem ch del) (access (store_deleted (WStr s)))
              just_paused (fun _ => kept mem ch del)) as H.
    { apply rg_access; [done|]. intros st' d Hi E. pose proof E as (E1&E2&E3).
      assert (s_mem st' !! WStr s = None) as Em' by (by rewrite E1, <- Kmem).
      unfold store_deleted. cbn [s_mem s_db]. rewrite Em', Hk.
      destruct (d !! s) as [v|] eqn:Ed.
      - eexists _, (Ok tt). split; [done|]. destruct Hi as [I1 I2 I3 I4].
        split; [constructor; cbn; try done; by apply wf_db_del|]. split; [done|]. split; [|done].
        intros k [g | ->] Hk'; cbn; [|by rewrite lookup_delete_ne].
        exfalso. specialize (Hg g). set_solver.
      - eexists _, (Ok tt). split; [done|]. split; [done|]. split; [done|]. split; [|done].
        by intros k. }
    destruct (H st env Hr Hkept) as (st'&env'&r'&E'&X). exists st', env', r'.
    split; [|exact X]. unfold shared_deleted. rewrite Em, Hk. exact E'.
  Qed.

  Lemma rg_state_dep {T : Type} (f : sstore -> list T) (l : list T) (P : sstore -> Prop)
      (b : T -> M pstore unit) (E : exn -> Prop) (Q : unit -> sstore -> Prop) :
    (forall st, P st -> f st = l) -> rg P (mfor l b) E Q ->
    rg P (fun '(st, env) => mfor (f st) b (st, env)) E Q.
  Proof. intros Hf H st env Hr Hp. rewrite (Hf st Hp). by apply H. Qed.

  Lemma rg_store it s h : set_order_ok it -> (0 <= s)%Z -> (0 <= h)%Z ->
    rg (fun _ => True)
      (mbind (fun '(st, env) => mfor (it (elements (s_changed st))) shared_changed (st, env)) (fun _ =>
       mbind (fun '(st, env) => mfor (it (elements (s_deleted st))) shared_deleted (st, env)) (fun _ =>
       mbind (own (fun st => (SStore (s_db st) (s_mem st) ∅ ∅ (s_log st), Ok tt))) (fun _ =>
       access (write_state_key s h))))) just_paused (fun _ _ => True).
  Proof.
    intros Hit Hs Hh. apply rg_any. intros st0 Hi0 _.
    set (mem := s_mem st0). set (ch := s_changed st0). set (del := s_deleted st0).
    apply (rg_conseq (kept mem ch del) _ _ just_paused just_paused (fun _ _ => True)); [by intros st ->|done|done|].
    eapply rg_mbind.
    { apply (rg_state_dep (fun st => it (elements (s_changed st))) (it (elements ch))).
      - intros st (_&Kc&_). by rewrite Kc.
      - apply rg_mfor. intros w Hw. apply rg_changed. apply (proj2 (Hit _)), elem_of_elements in Hw. done. }
    intros ?. eapply rg_mbind.
    { apply (rg_state_dep (fun st => it (elements (s_deleted st))) (it (elements del))).
      - intros st (_&_&Kd). by rewrite Kd.
      - apply rg_mfor. intros w Hw. apply rg_deleted. apply (proj2 (Hit _)), elem_of_elements in Hw. done. }
    intros ?. apply (rg_mbind _ _ _ _ (fun _ _ => True)).
    { apply rg_own. intros st [H1 H2 H3 H4] _. eexists _, (Ok tt). split; [done|].
      split; [constructor; cbn; try done; set_solver|]. done. }
    intros ?. eapply rg_conseq; [..|by apply rg_state]; [done| |done].
    intros e He. exact He.
  Qed.
End rg.

Section objects.
  Context {A : num} (it : set_order) (Hit : set_order_ok it) (G : Prop).
  Notation pobj := (obj A pstore).
  (** The probabilities of words that were seen, and the ways in which the
      arithmetic of scoring fails. *)
  Context (K : F A -> Prop) (SE : exn -> Prop).
  Context (HK : forall ns nh r, (0 <= ns)%Z -> (0 <= nh)%Z -> wf_record r ->
    match prob_formula (A:=A) ns nh r with Ok p => K p | Err e => SE e end).
  Context (HU : K UNKNOWN_WORD_PROB).
  Context (HS : forall ps, Forall K ps ->
    match score_probs A ps with Ok _ => True | Err e => SE e end).

  Definition cache_in (o : pobj) : Prop :=
    forall sc row hc p, o_cache o !! sc = Some row -> row !! hc = Some p -> K p.

  Record oready (o : pobj) : Prop := {
    or_store : ready G (o_store o).1 (o_store o).2;
    or_nn : (0 <= o_nspam o)%Z /\ (0 <= o_nham o)%Z;
    or_bg : o_bigrams o = Some false;
    or_cache : cache_in o
  }.

  Definition omoved (o o' : pobj) : Prop :=
    moved G (o_store o).1 (o_store o).2 (o_store o').1 (o_store o').2.

  Definition org {B : Type} (m : M pobj B) (E : exn -> Prop) (Q : B -> Prop) : Prop :=
    forall o, oready o -> exists o' r, m o = (o', r) /\ oready o' /\ omoved o o' /\
      match r with Ok a => Q a | Err e => E e end.

  Lemma org_mret {B : Type} (b : B) (E : exn -> Prop) (Q : B -> Prop) : Q b -> org (mret b) E Q.
  Proof. intros H o Ho. exists o, (Ok b). split_and!; [done|done|apply moved_refl|done]. Qed.

  Lemma org_mbind {B C : Type} (m : M pobj B) (k : B -> M pobj C) (E : exn -> Prop)
      (Q : B -> Prop) (R : C -> Prop) :
    org m E Q -> (forall a, Q a -> org (k a) E R) -> org (mbind m k) E R.
  Proof.
    intros Hm Hk o Ho. destruct (Hm o Ho) as (o1&r1&E1&R1&M1&Q1).
    unfold mbind. rewrite E1. destruct r1 as [a|e].
    - destruct (Hk a Q1 o1 R1) as (o2&r2&E2&R2&M2&Q2).
      exists o2, r2. split_and!; [done|done|by eapply moved_trans|done].
    - exists o1, (Err e). done.
  Qed.

  Lemma org_conseq {B : Type} (m : M pobj B) (E E' : exn -> Prop) (Q Q' : B -> Prop) :
    (forall e, E e -> E' e) -> (forall a, Q a -> Q' a) -> org m E Q -> org m E' Q'.
  Proof.
    intros HE HQ H o Ho. destruct (H o Ho) as (o1&r1&E1&R1&M1&Q1).
    exists o1, r1. split_and!; [done..|]. destruct r1; auto.
  Qed.

  Lemma org_mmap {T B : Type} (l : list T) (f : T -> M pobj B) (E : exn -> Prop) (Q : B -> Prop) :
    (forall x, x ∈ l -> org (f x) E Q) -> org (mmap l f) E (Forall Q).
  Proof.
    induction l as [|x l IH]; intros H; simpl; [apply org_mret; constructor|].
    eapply org_mbind; [apply H; by left|]. intros a Ha. eapply org_mbind.
    { apply IH. intros y Hy. apply H. by right. }
    intros l' Hl'. apply org_mret. by constructor.
  Qed.

  Lemma org_store {B : Type} (m : M pstore B) (E : exn -> Prop) (Q : B -> Prop) :
    rg G (fun _ => True) m E (fun a st => pinv st -> Q a) -> org (on_store m) E Q.
  Proof.
    intros H o Ho. pose proof (or_store o Ho) as Hr. destruct (o_store o) as [st env] eqn:Es.
    destruct (H st env Hr I) as (st'&env'&r&E1&R1&M1&Q1).
    exists (with_store o (st', env')), r. unfold on_store. rewrite Es, E1. split; [done|].
    split; [|split].
    - destruct Ho as [_ H2 H3 H4]. constructor; done.
    - unfold omoved. rewrite Es. done.
    - destruct r; [apply Q1, R1|done].
  Qed.

  Definition odd_end (e : exn) : Prop := soft G e \/ SE e.

  Lemma org_probability r : wf_record r -> org (probability r) odd_end K.
  Proof.
    intros Hr o Ho. unfold probability.
    destruct (o_cache o !! spamcount r ≫= (fun row => row !! hamcount r)) as [p|] eqn:Ec.
    { exists o, (Ok p). split_and!; [done|done|apply moved_refl|].
      destruct (o_cache o !! spamcount r) as [row|] eqn:E1; [|done]. simpl in Ec.
      by apply (or_cache o Ho _ _ _ _ E1 Ec). }
    destruct (or_nn o Ho) as [N1 N2]. pose proof (HK _ _ r N1 N2 Hr) as Hp.
    destruct (prob_formula _ _ r) as [p|e].
    2:{ exists o, (Err e). split_and!; [done|done|apply moved_refl|by right]. }
    eexists _, (Ok p). split; [done|]. split; [|split; [apply moved_refl|done]].
    destruct Ho as [H1 H2 H3 H4]. constructor; [done..|].
    intros sc row hc q. unfold with_cache. cbn [o_cache].
    destruct (decide (sc = spamcount r)) as [->|Hne]; [rewrite lookup_insert|rewrite lookup_insert_ne by done; apply H4].
    intros [= <-]. destruct (o_cache o !! spamcount r) as [row|] eqn:E1.
    - destruct (decide (hc = hamcount r)) as [->|Hne]; [rewrite lookup_insert; by intros [= <-]|].
      rewrite lookup_insert_ne by done. intros Hq. exact (H4 _ _ _ _ E1 Hq).
    - rewrite lookup_singleton_Some. by intros [_ <-].
  Qed.

  Lemma org_wdg w : plain w ->
    org (worddistanceget shared_backend w) odd_end (fun c => c_word c = w /\ K (c_prob c)).
  Proof.
    intros Hp. unfold worddistanceget. cbn [bk_get shared_backend].
    apply (org_mbind _ _ _ (fun ro => forall r, ro = Some r -> wf_record r)).
    { apply (org_conseq _ (soft G) odd_end _ _ (fun e He => or_introl He) (fun ro H => H)).
      apply org_store. eapply rg_conseq; [..|by apply (rg_get G w)]; [done|done|].
      intros ro st H Hi r ->. cbn in H. by apply (p_mem st Hi) in H as [_ ?]. }
    intros ro Hro. eapply org_mbind with (Q := K).
    - destruct ro as [r|]; [apply org_probability; auto|by apply org_mret].
    - intros p Kp. by apply org_mret.
  Qed.

  Lemma no_clash (l : list (clue A)) : Forall (fun c => exists s, c_word c = WStr s) l ->
    any_clash l = false.
  Proof.
    induction l as [|c l IH]; intros H; [done|]. apply Forall_cons in H as [(s&Hc) H]. simpl.
    rewrite IH by done. rewrite orb_false_r. destruct (existsb (kind_clash c) l) eqn:E; [|done].
    apply existsb_exists in E as (c'&Hin&E). apply elem_of_list_In in Hin.
    rewrite Forall_forall in H. destruct (H c' Hin) as (s'&Hc').
    unfold kind_clash in E. rewrite Hc, Hc' in E. simpl in E.
    by rewrite andb_false_r in E.
  Qed.

  Lemma Forall_isort {X : Type} (leb : X -> X -> bool) (P : X -> Prop) l :
    Forall P l -> Forall P (isort leb l).
  Proof. intros H. by rewrite isort_Permutation. Qed.

  Lemma org_score s : Forall plain (elems s) ->
    org (spamprob_evidence shared_backend it s) odd_end (fun _ => True).
  Proof.
    intros Hs. unfold spamprob_evidence. apply (org_mbind _ _ _ (Forall (fun c => K (c_prob c)))).
    - intros o Ho. unfold getclues. rewrite (or_bg o Ho). unfold getclues_uni.
      cut (org (mbind (mmap (it (elems s)) (worddistanceget (A:=A) shared_backend)) (fun tups o =>
        (o, rbind (sort_clues (List.filter significant tups)) (fun l => Ok (strongest l)))))
        odd_end (Forall (fun c => K (c_prob c)))); [intros H; by apply H|].
      apply (org_mbind _ _ _ (Forall (fun c => (exists s, c_word c = WStr s) /\ K (c_prob c)))).
      + apply org_mmap. intros w Hw. apply (proj1 (proj2 (Hit _) _)) in Hw. rewrite Forall_forall in Hs.
        apply (org_conseq _ odd_end odd_end (fun c => c_word c = w /\ K (c_prob c)) _ (fun e H => H)).
        * intros c [Hc Hk]. split; [|done].
          rewrite Hc. destruct (plain_key w (Hs w Hw)) as (s1&->&_). eauto.
        * apply org_wdg. by apply Hs.
      + intros tups Ht o1 Ho1. unfold sort_clues.
        assert (Forall (fun c => (exists s, c_word c = WStr s) /\ K (c_prob c)) (List.filter significant tups)) as Hf.
        { rewrite Forall_forall in *. intros c Hc. apply Ht.
          apply elem_of_list_In, List.filter_In in Hc as [Hc _]. by apply elem_of_list_In. }
        rewrite no_clash by (eapply Forall_impl; [exact Hf|]; naive_solver).
        eexists _, (Ok _). split; [done|]. split; [done|]. split; [apply moved_refl|].
        apply (Forall_isort clue_leb) in Hf. unfold strongest.
        destruct (_ <? _)%nat; [apply Forall_drop|]; eapply Forall_impl; try exact Hf; naive_solver.
    - intros cs Hcs o Ho. pose proof (HS (c_prob <$> cs)) as H.
      assert (Forall K (c_prob <$> cs)) as Hk by (by apply Forall_fmap).
      specialize (H Hk). destruct (score_probs A (c_prob <$> cs)) as [[[p a] h]|e].
      + eexists _, (Ok _). split; [done|]. split; [done|]. split; [apply moved_refl|done].
      + eexists _, (Err e). split; [done|]. split; [done|]. split; [apply moved_refl|by right].
  Qed.

  Lemma org_train (b : pyword -> M pstore unit) (ws : list pyword) (n m : Z) (o : pobj) :
    (forall w, w ∈ ws -> rg G (fun _ => True) (b w) (soft G) (fun _ _ => True)) ->
    (0 <= n)%Z -> (0 <= m)%Z -> oready o ->
    exists o' r, on_store (mbind (mfor (it ws) b) (fun _ => bk_post shared_backend n m))
                   (with_counts (with_cache o ∅) n m) = (o', r) /\
      oready o' /\ omoved o o' /\ match r with Ok _ => True | Err e => soft G e end.
  Proof.
    intros Hb Hn Hm Ho.
    assert (oready (with_counts (with_cache o ∅) n m)) as Ho'.
    { destruct Ho as [H1 H2 H3 H4]. constructor; [done..|].
      intros sc row hc p. cbn [with_counts with_cache o_cache]. by rewrite lookup_empty. }
    assert (org (on_store (mbind (mfor (it ws) b) (fun _ => bk_post shared_backend n m))) (soft G)
              (fun _ => True)) as H; [|exact (H _ Ho')].
    apply org_store. eapply rg_mbind.
    - apply (rg_mfor G (fun _ => True)). intros w Hw. apply Hb. by apply (proj2 (Hit _)).
    - intros ?. eapply rg_conseq; [..|by apply (rg_state G n m)]; [done| |done]. intros e ->. by left.
  Qed.

  Lemma org_learn (s : stream) (b : bool) : Forall plain (elems s) ->
    org (learn shared_backend it s b) (soft G) (fun _ => True).
  Proof.
    intros Hs o Ho. unfold learn. rewrite (or_bg o Ho). destruct (or_nn o Ho) as [N1 N2].
    destruct (org_train (add_word shared_backend b) (elems s)
      (if b then o_nspam o + 1 else o_nspam o)%Z (if b then o_nham o else o_nham o + 1)%Z o)
      as (o'&r&E&X); [| | |done|].
    - intros w Hw. apply rg_add_word. rewrite Forall_forall in Hs. auto.
    - destruct b; lia.
    - destruct b; lia.
    - exists o', r. split; [|exact X]. rewrite <- E. by destruct b.
  Qed.

  Lemma org_unlearn (s : stream) (b : bool) : ~ G -> Forall plain (elems s) ->
    org (unlearn shared_backend it s b) (fun e => soft G e \/ e = ValueError) (fun _ => True).
  Proof.
    intros HG Hs o Ho. unfold unlearn. rewrite (or_bg o Ho). destruct (or_nn o Ho) as [N1 N2].
    unfold remove_msg. cbn [with_cache o_nspam o_nham].
    destruct (Z.leb_spec (if b then o_nspam o else o_nham o) 0) as [Hz|Hpos].
    { eexists _, (Err ValueError). split; [done|]. split; [|split; [apply moved_refl|by right]].
      destruct Ho as [H1 H2 H3 H4]. constructor; [done..|].
      intros sc row hc p. cbn [with_cache o_cache]. by rewrite lookup_empty. }
    destruct (org_train (remove_word shared_backend b) (elems s)
      (if b then o_nspam o - 1 else o_nspam o)%Z (if b then o_nham o else o_nham o - 1)%Z o)
      as (o'&r&E&X1&X2&X3); [| | |done|].
    - intros w Hw. apply rg_remove_word; [done|]. rewrite Forall_forall in Hs. auto.
    - destruct b; lia.
    - destruct b; lia.
    - exists o', r. split; [|split_and!; [done|done|destruct r; auto]]. rewrite <- E. by destruct b.
  Qed.

  Lemma org_save : org (shared_store it) just_paused (fun _ => True).
  Proof.
    intros o Ho. destruct (or_nn o Ho) as [N1 N2]. unfold shared_store.
    match goal with |- exists o' r, on_store ?m o = _ /\ _ =>
      assert (org (on_store m) just_paused (fun _ => True)) as H; [|exact (H o Ho)] end.
    apply org_store. eapply rg_conseq; [..|by apply (rg_store G it (o_nspam o) (o_nham o) Hit)]; done.
  Qed.

  Lemma org_load : org shared_load just_paused (fun _ => True).
  Proof.
    intros o Ho. pose proof (or_store o Ho) as Hr. destruct (o_store o) as [st env] eqn:Es.
    destruct Hr as (Hi&He&HSo&Hg). cbn [fst snd] in *.
    unfold shared_load, mbind, on_store, access, db_has, db_read. rewrite Es.
    destruct env as [|d1 env].
    { exists o, (Err PAUSED). unfold with_store. split_and!; [by destruct o; cbn in *; subst|done|apply moved_refl|done]. }
    apply Forall_cons in He as [Hd1 He]. cbn [s_db s_mem s_changed s_deleted s_log with_store o_store].
    apply StronglySorted_inv in HSo as [HSo HSd].
    assert (forall s h d env, (0 <= s)%Z -> (0 <= h)%Z -> wf_db d -> Forall wf_db env ->
      StronglySorted (grows G) env -> 
      oready (Obj (o_bigrams o) s h (o_cache o) (SStore d ∅ ∅ ∅ (s_log st), env))) as Hfresh.
    { intros s h d env' Hs Hh Hd He' Hso. constructor; cbn [o_store fst snd o_nspam o_nham o_bigrams].
      - split; [|done]. constructor; cbn; [done|..]; intros w; [by rewrite lookup_empty|set_solver..].
      - done.
      - apply Ho.
      - apply Ho. }
    destruct (bool_decide (is_Some (d1 !! STATE_KEY))) eqn:Ein.
    2:{ eexists _, (Ok tt). split; [done|]. split; [|split; [|done]].
        - by apply Hfresh.
        - unfold omoved. rewrite Es. exists [d1]. split; [done|]. by intros k. }
    apply bool_decide_eq_true in Ein.
    destruct env as [|d2 env].
    { eexists _, (Err PAUSED). split; [done|]. split; [|split; [|done]].
      - destruct Ho as [H1 H2 H3 H4]. constructor; cbn [o_store fst snd with_store o_nspam o_nham o_bigrams]; [|done..].
        split; [|done]. destruct Hi as [_ I2 I3 I4]. by constructor.
      - unfold omoved. rewrite Es. exists [d1]. split; [done|]. by intros k. }
    apply Forall_cons in He as [Hd2 He]. apply Forall_cons in HSd as [Hgr HSd].
    apply StronglySorted_inv in HSo as [HSo _].
    destruct (Hgr STATE_KEY (or_intror eq_refl) Ein) as [v Ev]. cbn [s_db s_mem s_changed s_deleted s_log o_store with_store]. rewrite Ev.
    destruct v as [r|v s h].
    { apply (d_rec _ Hd2) in Ev as [_ Ev]. by apply state_not_plain in Ev. }
    apply (d_state _ Hd2) in Ev as (_&->&Hs&Hh). rewrite Z.eqb_refl.
    eexists _, (Ok tt). split; [done|]. split; [|split; [|done]].
    - by apply Hfresh.
    - unfold omoved. rewrite Es. exists [d1; d2]. split; [done|]. by intros k.
  Qed.
End objects.
