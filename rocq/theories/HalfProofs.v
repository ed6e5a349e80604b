(** * Messages some of whose words the database cannot hold (C144) *)
From Coq Require Import String Lia.
From Verif Require Import Py NumModel ClassifierModel TrainSpec TrainProofs ScoreProofs ClueProofs RealModel
  ShelveModel ShelveSpec ShelveProofs ShelveRunProofs ShelveCrashProofs ShelveApiProofs ShareSpec ShareLoadProofs TornProofs HalfSpec.

Lemma misfit_get st w : sinv st -> misfit w -> shelve_get w st = (st, Err (misfit_error w)).
Proof.
  intros H [Hw|Hw].
  - rewrite foreign_get by done. destruct w as [t| |]; [by destruct (Hw t)|done..].
  - rewrite torn_get by done. by destruct Hw as (t & c & -> & _).
Qed.

Lemma misfit_dec w : fits w \/ misfit w \/ w = WStr STATE_KEY.
Proof.
  destruct w as [t|t|]; [|right; left; by left..].
  destruct (decide (t = STATE_KEY)) as [->|Hne]; [by right; right|].
  destruct (existsb is_surrogate t) eqn:E.
  - right. left. right. apply existsb_exists in E as (c & Hc & Hs). exists t, c. split; [done|]. split; [by apply elem_of_list_In|].
    unfold is_surrogate in Hs. apply andb_true_iff in Hs. by rewrite !N.leb_le in Hs.
  - left. exists t. split; [done|]. split; [|done]. apply Forall_forall. intros c Hc Hs.
    assert (existsb is_surrogate t = true) as E'; [|congruence]. apply existsb_exists. exists c.
    split; [by apply elem_of_list_In|]. unfold is_surrogate. apply andb_true_iff. by rewrite !N.leb_le.
Qed.

(** The first misfit of a list. *)
Lemma first_misfit l : (forall w, w ∈ l -> w <> WStr STATE_KEY) -> (exists w, w ∈ l /\ misfit w) ->
  exists pre x post, l = pre ++ x :: post /\ Forall fits pre /\ misfit x.
Proof.
  induction l as [|y l IH]; intros Hk (w & Hw & Hm); [by apply elem_of_nil in Hw|].
  destruct (misfit_dec y) as [Hy|[Hy|Hy]].
  - apply elem_of_cons in Hw as [->|Hw].
    + destruct Hm as [Hm|Hm]; [|by apply torn_not_plain in Hm]. destruct Hy as (t & -> & _). by destruct (Hm t).
    + destruct IH as (pre & x & post & -> & Hp & Hx); [intros; apply Hk; by right|by exists w|].
      exists (y :: pre), x, post. split; [done|]. split; [by constructor|done].
  - by exists [], y, l.
  - exfalso. apply (Hk y); [left|done].
Qed.

Lemma mfor_split {St} (body : pyword -> M St unit) pre x post st st' e :
  mfor pre body st = (st', Ok tt) -> body x st' = (st', Err e) -> mfor (pre ++ x :: post) body st = (st', Err e).
Proof.
  revert st. induction pre as [|y pre IH]; intros st; cbn [mfor app].
  - intros [= ->] E. unfold mbind. by rewrite E.
  - unfold mbind. destruct (body y st) as [st1 [[]|e']]; [|done]. apply IH.
Qed.

Section half.
  Context {A : num} (it : set_order) (Hit : set_order_ok it).
  Notation sobj := (obj A sstore).
  Notation mobj := (obj A (gmap pyword winfo)).

  Lemma unbump_bump b r : (forall r', r = Some r' -> wf_record r') ->
    unbump_opt b (Some (bump b (default wi_new r))) = r.
  Proof.
    intros H. destruct r as [[s h]|]; [|by destruct b]. specialize (H _ eq_refl). unfold wf_record in H. simpl in *.
    unfold unbump_opt, unbump, bump, is_zero. destruct b; simpl.
    - rewrite (proj2 (Z.ltb_lt 0 (s + 1))) by lia. simpl. rewrite Z.add_simpl_r.
      destruct (Z.eqb_spec h 0), (Z.eqb_spec s 0); simpl; try done. lia.
    - rewrite (proj2 (Z.ltb_lt 0 (h + 1))) by lia. simpl. rewrite Z.add_simpl_r.
      destruct (Z.eqb_spec h 0), (Z.eqb_spec s 0); simpl; try done. lia.
  Qed.

  (** Some in-memory classifier has the same records. *)
  Lemma some_sim (o : sobj) : oinv o -> exists m : mobj, sim o m.
  Proof.
    intros I.
    set (ks := (map_to_list (s_mem (o_store o))).*1 ++ (WStr <$> (map_to_list (s_db (o_store o))).*1)).
    set (mm := list_to_map (omap (fun w => (fun r => (w, r)) <$> look (o_store o) w) ks) : gmap pyword winfo).
    exists (Obj (Some false) (o_nspam o) (o_nham o) ∅ mm). constructor; try done.
    intros w. cbn [o_store]. symmetry. destruct (look (o_store o) w) as [r|] eqn:E.
    - apply elem_of_list_to_map_1'.
      + intros r' (w' & _ & Hr)%elem_of_list_omap. destruct (look (o_store o) w') as [r1|] eqn:E'; [|done].
        simpl in Hr. injection Hr as -> ->. congruence.
      + apply elem_of_list_omap. exists w. rewrite E. split; [|done]. unfold ks. rewrite elem_of_app, !elem_of_list_fmap.
        unfold look in E. destruct (s_mem (o_store o) !! w) as [r1|] eqn:Em.
        * left. exists (w, r1). split; [done|]. by apply elem_of_map_to_list.
        * right. destruct (decide _); [done|]. destruct w as [t| |]; try done. exists t. split; [done|].
          apply elem_of_list_fmap. destruct (s_db (o_store o) !! t) as [v|] eqn:Ed; [|done].
          exists (t, v). split; [done|]. by apply elem_of_map_to_list.
    - apply not_elem_of_list_to_map_1. intros (p & -> & (w' & _ & Hr)%elem_of_list_omap)%elem_of_list_fmap.
      destruct (look (o_store o) w') as [r1|] eqn:E'; [|done]. simpl in Hr. injection Hr as <-. simpl in E. congruence.
  Qed.

  Lemma half_learned d xs s b : left_behind A plain_op d -> Forall plain_op xs ->
    (forall w, w ∈ elems s -> w <> WStr (str "saved state")) -> (exists w, w ∈ elems s /\ misfit w) ->
    let o := fst (run_sops it xs (fst (shelve_open (A:=A) d))) in
    exists (o1 o2 : sobj) (pre post : list pyword) (x : pyword),
      it (elems s) = pre ++ x :: post /\ Forall fits pre /\ misfit x /\
      learn shelve_backend it s b o = (o1, Err (misfit_error x)) /\
      total_of b o1 = (total_of b o + 1)%Z /\ total_of (negb b) o1 = total_of (negb b) o /\
      (forall w, w ∈ pre -> exists r, recorded o w = Ok r /\ recorded o1 w = Ok (Some (one_more b r))) /\
      (forall w, w ∉ pre -> fits w -> recorded o1 w = recorded o w) /\
      unlearn shelve_backend it s b o1 = (o2, Err (misfit_error x)) /\
      total_of b o2 = total_of b o /\ total_of (negb b) o2 = total_of (negb b) o /\
      (forall w, fits w -> recorded o2 w = recorded o w) /\
      (forall ys, Forall plain_op ys -> tidy true ys -> snd (run_sops it ys o2) = snd (run_sops it ys o)).
  Proof.
    intros Hl Hxs Hk Hm o. pose proof (reachable_oinv it Hit plain_op d xs (fun x H => H) Hl Hxs) as I. fold o in I.
    destruct (first_misfit (it (elems s))) as (pre & x & post & Ei & Hp & Hx).
    { intros w Hw. apply Hk. by apply (proj2 (Hit _)). }
    { destruct Hm as (w & Hw & Hw'). exists w. split; [by apply (proj2 (Hit _))|done]. }
    assert (NoDup pre) as Hnd.
    { pose proof (proj1 (Hit (elems s))) as Hn. rewrite Ei in Hn. by apply NoDup_app in Hn as [? _]. }
    pose proof (o_nn o I) as [N1 N2].
    destruct (loop_spec (add_word shelve_backend b) (fun r => Some (bump b (default wi_new r))) (first_record b) (add_word_spec b)
                pre Hnd Hp (o_store o) (o_sinv o I)) as (st1 & ws1 & E1 & H1 & L1 & W1 & S1).
    destruct (loop_spec (remove_word shelve_backend b) (unbump_opt b) (fun _ => True) (remove_word_spec b)
                pre Hnd Hp st1 H1) as (st2 & ws2 & E2 & H2 & L2 & W2 & S2).
    set (o1 := Obj (Some false) (if b then o_nspam o + 1 else o_nspam o)%Z (if b then o_nham o else o_nham o + 1)%Z ∅ st1 : sobj).
    set (o2 := Obj (Some false) (o_nspam o) (o_nham o) ∅ st2 : sobj).
    assert (forall w, look st2 w = look (o_store o) w) as L.
    { intros w. rewrite L2, L1. case_bool_decide; [|done]. apply unbump_bump. intros r. apply look_wf, I. }
    assert (oinv o2) as I2.
    { constructor; try done. cbn [o_store o2 o_nspam o_nham].
      rewrite <- (o_tot o I). unfold db_totals.
      by rewrite (small_keeps_state _ ws2 st1 st2 S2 W2), (small_keeps_state _ ws1 (o_store o) st1 S1 W1). }
    exists o1, o2, pre, post, x. split; [done|]. split; [done|]. split; [done|].
    assert (forall (o' : sobj) w, sinv (o_store o') -> fits w -> recorded o' w = Ok (look (o_store o') w)) as Hrec.
    { intros o' w Ho' Hw. unfold recorded. by destruct (get_spec (o_store o') w Ho' Hw) as (st' & -> & _). }
    split_and!.
    - unfold learn. rewrite (o_bg o I). unfold add_msg, on_store, mbind.
      assert (o_store (if b then with_counts (with_cache o ∅) (o_nspam (with_cache o ∅) + 1) (o_nham (with_cache o ∅))
               else with_counts (with_cache o ∅) (o_nspam (with_cache o ∅)) (o_nham (with_cache o ∅) + 1))
            = o_store o) as -> by by destruct b.
      rewrite Ei, (mfor_split (add_word shelve_backend b) pre x post (o_store o) st1 (misfit_error x) E1).
      + pose proof (o_bg o I) as Hbg. clear -Hbg. destruct o as [bg ns nh ca st]; simpl in Hbg; subst bg. by destruct b.
      + unfold add_word, mbind. cbn [bk_get shelve_backend]. by rewrite misfit_get.
    - by destruct b.
    - by destruct b.
    - intros w Hw. exists (look (o_store o) w). rewrite Forall_forall in Hp.
      split; [apply Hrec; [apply I|by apply Hp]|]. rewrite Hrec; [|done|by apply Hp]. cbn [o_store o1]. rewrite L1, bool_decide_true by done.
      f_equal. f_equal. by destruct (look (o_store o) w), b.
    - intros w Hw Hf. rewrite !Hrec; [|apply I|done..]. cbn [o_store o1]. by rewrite L1, bool_decide_false.
    - unfold unlearn. cbn [o1 o_bigrams]. unfold remove_msg. 
      destruct (Z.leb_spec (if b then o_nspam (with_cache o1 ∅) else o_nham (with_cache o1 ∅)) 0) as [Hc|_].
      { destruct b; simpl in Hc; lia. }
      unfold on_store, mbind.
      assert (o_store (if b then with_counts (with_cache o1 ∅) (o_nspam (with_cache o1 ∅) - 1) (o_nham (with_cache o1 ∅))
               else with_counts (with_cache o1 ∅) (o_nspam (with_cache o1 ∅)) (o_nham (with_cache o1 ∅) - 1))
            = st1) as -> by by destruct b.
      rewrite Ei, (mfor_split (remove_word shelve_backend b) pre x post st1 st2 (misfit_error x) E2).
      + f_equal. unfold o1, o2. destruct b; simpl; by rewrite Z.add_simpl_r.
      + unfold remove_word, mbind. cbn [bk_get shelve_backend]. by rewrite misfit_get.
    - by destruct b.
    - by destruct b.
    - intros w Hf. rewrite !Hrec; [|apply I|done..]. cbn [o_store o2]. by rewrite L.
    - intros ys Hys Ht. destruct (some_sim o I) as [m Sm].
      assert (sim o2 m) as Sm2.
      { destruct Sm. constructor; try done. cbn [o_store o2]. intros w. by rewrite L. }
      destruct (sim_sops it Hit ys o m true Sm ltac:(done) Hys Ht) as [_ M1].
      destruct (sim_sops it Hit ys o2 m true Sm2 ltac:(done) Hys Ht) as [_ M2].
      by eapply outcomes_match_fun.
  Qed.

  Lemma misfit_mmap pre x post st0 : misfit x -> Forall fits pre -> forall o : sobj, same_disk st0 (o_store o) -> cache_ok o ->
    exists o' e, mmap (pre ++ x :: post) (worddistanceget shelve_backend) o = (o', Err e).
  Proof.
    intros Hx. induction 1 as [|y pre Hy Hp IH]; intros o Hs Hc; cbn [app mmap]; unfold mbind.
    - unfold worddistanceget at 1, mbind, on_store. cbn [bk_get shelve_backend].
      rewrite misfit_get; [by eexists _, _|apply Hs|done].
    - destruct (word_clue_computes shelve_backend (same_disk st0) look plain (get_same_disk st0) y o (conj Hs Hc) Hy)
        as (o1 & -> & [L1 L2 L3 L4 L5 L6]).
      destruct (word_clue _ _ _ y) as [c|e]; [|by eexists _, _].
      destruct (IH o1) as (o2 & e & ->); [done..|]. by eexists _, _.
  Qed.

  Lemma half_score d xs s : left_behind A plain_op d -> Forall plain_op xs ->
    (forall w, w ∈ elems s -> w <> WStr (str "saved state")) -> (exists w, w ∈ elems s /\ misfit w) ->
    let o := fst (run_sops it xs (fst (shelve_open (A:=A) d))) in
    exists o' e, spamprob_evidence shelve_backend it s o = (o', Err e).
  Proof.
    intros Hl Hxs Hk Hm o. pose proof (reachable_oinv it Hit plain_op d xs (fun x H => H) Hl Hxs) as I. fold o in I.
    destruct (first_misfit (it (elems s))) as (pre & x & post & Ei & Hp & Hx).
    { intros w Hw. apply Hk. by apply (proj2 (Hit _)). }
    { destruct Hm as (w & Hw & Hw'). exists w. split; [by apply (proj2 (Hit _))|done]. }
    unfold spamprob_evidence, mbind, getclues. rewrite (o_bg o I). unfold getclues_uni, mbind. rewrite Ei.
    destruct (misfit_mmap pre x post (o_store o) Hx Hp o) as (o' & e & ->); [|apply I|by eexists _, _].
    split; [apply I|done].
  Qed.
End half.

(** What is learned depends on the order in which the words are visited. *)
Lemma half_case :
  let s := SList [WStr (str "a"); WBytes (str "b"); WStr (str "c")] in
  left_behind exact plain_op ∅ /\ Forall plain_op [] /\
  (forall w, w ∈ elems s -> w <> WStr (str "saved state")) /\ (exists w, w ∈ elems s /\ misfit w).
Proof.
  split; [constructor|]. split; [done|]. split.
  - intros w Hw. simpl in Hw. rewrite !elem_of_cons, elem_of_nil in Hw. by destruct Hw as [->|[->|[->|[]]]].
  - exists (WBytes (str "b")). split; [right; left|by left].
Qed.

Lemma half_order :
  let s := SList [WStr (str "a"); WBytes (str "b"); WStr (str "c")] in
  exists it it', set_order_ok it /\ set_order_ok it' /\
    let o := fst (learn shelve_backend it s true (fst (shelve_open (A:=exact) ∅))) in
    let o' := fst (learn shelve_backend it' s true (fst (shelve_open (A:=exact) ∅))) in
    recorded o (WStr (str "a")) = Ok (Some (WI 1 0)) /\ recorded o (WStr (str "c")) = Ok None /\
    recorded o' (WStr (str "a")) = Ok None /\ recorded o' (WStr (str "c")) = Ok (Some (WI 1 0)).
Proof.
  exists (fun l => remove_dups l), (fun l => rev (remove_dups l)). split; [|split].
  - intros l. split; [apply NoDup_remove_dups|]. intros w. apply elem_of_remove_dups.
  - intros l. split; [apply NoDup_ListNoDup, NoDup_rev, NoDup_ListNoDup, NoDup_remove_dups|].
    intros w. rewrite elem_of_list_In, <- in_rev, <- elem_of_list_In. apply elem_of_remove_dups.
  - by vm_compute.
Qed.
