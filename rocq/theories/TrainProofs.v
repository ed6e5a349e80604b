(** * Lemmas about training (learn / unlearn) of the in-memory classifier *)
From Coq Require Import Lia.
From Verif Require Import Py NumModel ClassifierModel TrainSpec.

(** ** Tokens learned from a stream *)

(** What learn and unlearn iterate over. *)
Definition toks (bg : bool) (s : stream) : list pyword :=
  if bg then enhance s else elems s.

Lemma enhance_list_spec l w :
  w ∈ enhance_list l <->
  (exists i x, l !! i = Some x /\ S i < length l /\ w = x) \/
  (exists i x y, l !! i = Some x /\ l !! S i = Some y /\ w = bigram x y).
Proof.
  induction l as [|x l IH].
  - split; [by intros ?%elem_of_nil|].
    intros [(i&?&?&_)|(i&?&?&?&_)]; by rewrite lookup_nil in *.
  - destruct l as [|y r].
    + split; [by intros ?%elem_of_nil|].
      intros [(i&?&?&?&_)|(i&?&?&?&?&_)]; simpl in *; [lia|done].
    + change (enhance_list (x :: y :: r)) with (x :: bigram x y :: enhance_list (y :: r)).
      rewrite !elem_of_cons, IH. split.
      * intros [->|[->|[(i&z&Hi&Hl&->)|(i&a&b&Ha&Hb&->)]]].
        -- left. exists 0, x. simpl. split_and!; auto; lia.
        -- right. by exists 0, x, y.
        -- left. exists (S i), z. simpl in *. split_and!; auto; lia.
        -- right. by exists (S i), a, b.
      * intros [(i&z&Hi&Hl&->)|(i&a&b&Ha&Hb&->)]; destruct i as [|i]; simpl in *.
        -- left. congruence.
        -- right. right. left. exists i, z. simpl. split_and!; auto; lia.
        -- right. left. congruence.
        -- right. right. right. by exists i, a, b.
Qed.

Lemma enhance_iter_false_spec n : forall l w, length l <= n ->
  w ∈ enhance_iter false l <->
  exists k x y z, l !! (3 * k) = Some x /\ l !! (3 * k + 1) = Some y
                  /\ l !! (3 * k + 2) = Some z /\ (w = x \/ w = bigram y z).
Proof.
  induction n as [|n IH]; intros l w Hn.
  - destruct l; simpl in *; [|lia].
    split; [by intros ?%elem_of_nil|]. intros (k&x&y&z&H&_). by rewrite lookup_nil in H.
  - destruct l as [|x [|y [|z r]]].
    1-3: (split; [by intros ?%elem_of_nil|]; intros (k&x'&y'&z'&H1&H2&H3&_);
          apply lookup_lt_Some in H3; simpl in H3; lia).
    change (enhance_iter false (x :: y :: z :: r)) with (x :: bigram y z :: enhance_iter false r).
    rewrite !elem_of_cons, IH by (simpl in *; lia). split.
    + intros [->|[->|(k&a&b&c&Ha&Hb&Hc&Hw)]].
      * exists 0, x, y, z. simpl. auto.
      * exists 0, x, y, z. simpl. auto.
      * exists (S k), a, b, c.
        replace (3 * S k) with (S (S (S (3 * k)))) by lia. auto.
    + intros (k&a&b&c&Ha&Hb&Hc&Hw). destruct k as [|k].
      * simpl in *. simplify_eq. destruct Hw as [->| ->]; auto.
      * replace (3 * S k) with (S (S (S (3 * k)))) in * by lia. simpl in *.
        right; right. exists k, a, b, c. auto.
Qed.

Lemma toks_spec bg s w : w ∈ toks bg s <-> tokens_of bg s w.
Proof.
  unfold toks, tokens_of. destruct bg, s as [l|l]; try done.
  - apply enhance_list_spec.
  - unfold enhance. destruct l as [|x0 [|x1 [|x2 [|x3 r]]]].
    1-4: (split; [by intros ?%elem_of_nil|];
          intros [(x&y&z&H1&H2&H3&_)|(k&x&y&z&Hk&H1&H2&H3&_)];
          apply lookup_lt_Some in H3; simpl in H3; lia).
    change (enhance_iter true (x0 :: x1 :: x2 :: x3 :: r))
      with (x0 :: bigram x1 x3 :: enhance_iter false r).
    rewrite !elem_of_cons, (enhance_iter_false_spec (length r)) by lia. split.
    + intros [->|[->|(k&x&y&z&H1&H2&H3&Hw)]].
      * left. exists x0, x1, x3. simpl; auto.
      * left. exists x0, x1, x3. simpl; auto.
      * right. exists (S k), x, y, z. split; [lia|].
        replace (3 * S k + 1) with (S (S (S (S (3 * k))))) by lia.
        replace (3 * S k + 2) with (S (S (S (S (3 * k + 1))))) by lia.
        replace (3 * S k + 3) with (S (S (S (S (3 * k + 2))))) by lia. split_and!; done.
    + intros [(x&y&z&H1&H2&H3&Hw)|(k&x&y&z&Hk&H1&H2&H3&Hw)].
      * simpl in *. simplify_eq. destruct Hw as [->| ->]; auto.
      * destruct k as [|k]; [done|]. right; right. exists k, x, y, z.
        replace (3 * S k + 1) with (S (S (S (S (3 * k))))) in H1 by lia.
        replace (3 * S k + 2) with (S (S (S (S (3 * k + 1))))) in H2 by lia.
        replace (3 * S k + 3) with (S (S (S (S (3 * k + 2))))) in H3 by lia. split_and!; done.
Qed.

(** ** Effect of one message on the word dictionary *)

Definition bump (b : bool) (r : winfo) : winfo :=
  if b then WI (spamcount r + 1) (hamcount r) else WI (spamcount r) (hamcount r + 1).

Definition unbump (b : bool) (r : winfo) : winfo :=
  if b then (if (0 <? spamcount r)%Z then WI (spamcount r - 1) (hamcount r) else r)
  else (if (0 <? hamcount r)%Z then WI (spamcount r) (hamcount r - 1) else r).

Definition is_zero (r : winfo) : bool := (hamcount r =? 0)%Z && (spamcount r =? 0)%Z.

Definition unbump_opt (b : bool) (r : option winfo) : option winfo :=
  match r with
  | None => None
  | Some r => if is_zero (unbump b r) then None else Some (unbump b r)
  end.

Notation mstore := (gmap pyword winfo).

Lemma add_word_mem b w (m : mstore) :
  add_word mem_backend b w m = (<[w := bump b (default wi_new (m !! w))]> m, Ok tt).
Proof.
  unfold add_word, mbind; simpl. destruct (m !! w) as [r|]; simpl; destruct b; reflexivity.
Qed.

Lemma remove_word_mem b w (m : mstore) : exists m' : mstore,
  remove_word mem_backend b w m = (m', Ok tt) /\
  m' !! w = unbump_opt b (m !! w) /\ forall w', w' <> w -> m' !! w' = m !! w'.
Proof.
  unfold remove_word, mbind; simpl.
  destruct (m !! w) as [r|] eqn:Hw; simpl.
  2:{ exists m. by rewrite Hw. }
  change (if b then if (0 <? spamcount r)%Z then WI (spamcount r - 1) (hamcount r) else r
          else if (0 <? hamcount r)%Z then WI (spamcount r) (hamcount r - 1) else r)
    with (unbump b r).
  change ((hamcount (unbump b r) =? 0)%Z && (spamcount (unbump b r) =? 0)%Z)
    with (is_zero (unbump b r)).
  destruct (is_zero (unbump b r)).
  - rewrite Hw. exists (delete w m). split; [done|].
    split; [by simplify_map_eq|]. intros. by simplify_map_eq.
  - exists (<[w:=unbump b r]> m). split; [done|].
    split; [by simplify_map_eq|]. intros. by simplify_map_eq.
Qed.

Lemma mfor_add_mem b l : NoDup l -> forall (m : mstore), exists m' : mstore,
  mfor l (add_word mem_backend b) m = (m', Ok tt) /\
  forall w : pyword, m' !! w = if bool_decide (w ∈ l) then Some (bump b (default wi_new (m !! w))) else m !! w.
Proof.
  induction 1 as [|x l Hx Hnd IH]; intros m; simpl.
  - exists m. done.
  - unfold mbind. rewrite add_word_mem.
    destruct (IH (<[x:=bump b (default wi_new (m !! x))]> m)) as (m'&Hm'&Hl).
    exists m'. split; [done|]. intros w. rewrite Hl.
    destruct (decide (w = x)) as [->|Hne].
    + rewrite bool_decide_eq_false_2 by done.
      rewrite bool_decide_eq_true_2 by left. by simplify_map_eq.
    + rewrite lookup_insert_ne by done.
      destruct (decide (w ∈ l)).
      * by rewrite !bool_decide_eq_true_2 by (try right; done).
      * by rewrite !bool_decide_eq_false_2 by (rewrite ?elem_of_cons; tauto).
Qed.

Lemma mfor_remove_mem b l : NoDup l -> forall (m : mstore), exists m' : mstore,
  mfor l (remove_word mem_backend b) m = (m', Ok tt) /\
  forall w : pyword, m' !! w = if bool_decide (w ∈ l) then unbump_opt b (m !! w) else m !! w.
Proof.
  induction 1 as [|x l Hx Hnd IH]; intros m; simpl.
  - exists m. done.
  - unfold mbind. destruct (remove_word_mem b x m) as (m1&->&Hx1&Ho1).
    destruct (IH m1) as (m'&Hm'&Hl).
    exists m'. split; [done|]. intros w. rewrite Hl.
    destruct (decide (w = x)) as [->|Hne].
    + rewrite bool_decide_eq_false_2 by done.
      by rewrite bool_decide_eq_true_2 by left.
    + rewrite Ho1 by done.
      destruct (decide (w ∈ l)).
      * by rewrite !bool_decide_eq_true_2 by (try right; done).
      * by rewrite !bool_decide_eq_false_2 by (rewrite ?elem_of_cons; tauto).
Qed.

Section training.
  Context {A : num} (it : set_order) (Hit : set_order_ok it).
  Notation mobj := (obj A mstore).

  Definition bump_total (b : bool) (d : Z) (o : mobj) (s h : Z) : Prop :=
    if b then s = (o_nspam o + d)%Z /\ h = o_nham o
    else s = o_nspam o /\ h = (o_nham o + d)%Z.

  Lemma it_elem l w : w ∈ it l <-> w ∈ l.
  Proof. apply Hit. Qed.

  Lemma add_msg_mem ws b (o : mobj) : exists m' : mstore,
    add_msg mem_backend it ws b o =
      (Obj (o_bigrams o) (if b then o_nspam o + 1 else o_nspam o)%Z
           (if b then o_nham o else o_nham o + 1)%Z ∅ m', Ok tt) /\
    forall w : pyword, m' !! w = if bool_decide (w ∈ ws)
                        then Some (bump b (default wi_new (o_store o !! w)))
                        else o_store o !! w.
  Proof.
    destruct (mfor_add_mem b (it ws) (proj1 (Hit ws)) (o_store o)) as (m'&Hm&Hl).
    exists m'. split.
    - unfold add_msg, on_store, mbind. destruct b; simpl; rewrite Hm; reflexivity.
    - intros w. rewrite Hl. f_equal.
      by rewrite (bool_decide_ext _ _ (it_elem ws w)).
  Qed.

  Lemma remove_msg_mem ws (b : bool) (o : mobj) :
    ((if b then o_nspam o else o_nham o) <= 0)%Z ->
    remove_msg mem_backend it ws b o =
      (Obj (o_bigrams o) (o_nspam o) (o_nham o) ∅ (o_store o), Err ValueError).
  Proof.
    intros H. unfold remove_msg.
    destruct (Z.leb_spec (if b then o_nspam (with_cache o ∅) else o_nham (with_cache o ∅)) 0) as [_|Hc].
    - reflexivity.
    - destruct b; simpl in Hc; lia.
  Qed.

  Lemma remove_msg_mem_pos ws (b : bool) (o : mobj) :
    (0 < (if b then o_nspam o else o_nham o))%Z -> exists m' : mstore,
    remove_msg mem_backend it ws b o =
      (Obj (o_bigrams o) (if b then o_nspam o - 1 else o_nspam o)%Z
           (if b then o_nham o else o_nham o - 1)%Z ∅ m', Ok tt) /\
    forall w : pyword, m' !! w = if bool_decide (w ∈ ws)
                        then unbump_opt b (o_store o !! w)
                        else o_store o !! w.
  Proof.
    intros H.
    destruct (mfor_remove_mem b (it ws) (proj1 (Hit ws)) (o_store o)) as (m'&Hm&Hl).
    exists m'. split.
    - unfold remove_msg.
      destruct (Z.leb_spec (if b then o_nspam (with_cache o ∅) else o_nham (with_cache o ∅)) 0) as [Hc|_].
      + destruct b; simpl in Hc; lia.
      + unfold on_store, mbind. destruct b; simpl; rewrite Hm; reflexivity.
    - intros w. rewrite Hl. f_equal.
      by rewrite (bool_decide_ext _ _ (it_elem ws w)).
  Qed.

  (** the two together, on a stream *)
  Lemma learn_mem s b bg (o : mobj) : o_bigrams o = Some bg -> exists m' : mstore,
    learn mem_backend it s b o =
      (Obj (Some bg) (if b then o_nspam o + 1 else o_nspam o)%Z
           (if b then o_nham o else o_nham o + 1)%Z ∅ m', Ok tt) /\
    forall w : pyword, m' !! w = if bool_decide (w ∈ toks bg s)
                        then Some (bump b (default wi_new (o_store o !! w)))
                        else o_store o !! w.
  Proof.
    intros Hbg. unfold learn. rewrite Hbg.
    destruct bg; simpl; [destruct (add_msg_mem (enhance s) b o) as (m'&->&Hl)
                        |destruct (add_msg_mem (elems s) b o) as (m'&->&Hl)];
      exists m'; rewrite Hbg; auto.
  Qed.

  Lemma unlearn_mem_pos s (b : bool) bg (o : mobj) : o_bigrams o = Some bg ->
    (0 < (if b then o_nspam o else o_nham o))%Z -> exists m' : mstore,
    unlearn mem_backend it s b o =
      (Obj (Some bg) (if b then o_nspam o - 1 else o_nspam o)%Z
           (if b then o_nham o else o_nham o - 1)%Z ∅ m', Ok tt) /\
    forall w : pyword, m' !! w = if bool_decide (w ∈ toks bg s)
                        then unbump_opt b (o_store o !! w)
                        else o_store o !! w.
  Proof.
    intros Hbg Hpos. unfold unlearn. rewrite Hbg.
    destruct bg; simpl; [destruct (remove_msg_mem_pos (enhance s) b o Hpos) as (m'&->&Hl)
                        |destruct (remove_msg_mem_pos (elems s) b o Hpos) as (m'&->&Hl)];
      exists m'; rewrite Hbg; auto.
  Qed.

  Lemma unlearn_mem_zero s (b : bool) bg (o : mobj) : o_bigrams o = Some bg ->
    ((if b then o_nspam o else o_nham o) <= 0)%Z ->
    unlearn mem_backend it s b o =
      (Obj (Some bg) (o_nspam o) (o_nham o) ∅ (o_store o), Err ValueError).
  Proof.
    intros Hbg Hz. unfold unlearn. rewrite Hbg.
    destruct bg; rewrite remove_msg_mem by done; by rewrite Hbg.
  Qed.

  (** ** Scoring does not touch records and totals *)

  Definition untouched {B} (m : M mobj B) : Prop :=
    forall o, same_training (fst (m o)) o.

  Lemma same_training_refl (o : mobj) : same_training o o.
  Proof. by repeat split. Qed.

  Lemma same_training_trans (o1 o2 o3 : mobj) :
    same_training o1 o2 -> same_training o2 o3 -> same_training o1 o3.
  Proof. unfold same_training. intros (?&?&?&?) (?&?&?&?). split_and!; congruence. Qed.

  Lemma untouched_ret {B} (x : B) : untouched (mret x).
  Proof. intros o. apply same_training_refl. Qed.

  Lemma untouched_bind {B C} (m : M mobj B) (k : B -> M mobj C) :
    untouched m -> (forall x, untouched (k x)) -> untouched (mbind m k).
  Proof.
    intros Hm Hk o. unfold mbind. specialize (Hm o).
    destruct (m o) as [o' [x|e]]; simpl in *; [|done].
    eapply same_training_trans; [apply Hk|done].
  Qed.

  Lemma untouched_pure {B} (f : res B) : untouched (fun o => (o, f)).
  Proof. intros o. apply same_training_refl. Qed.

  Lemma untouched_probability r : untouched (probability r).
  Proof.
    intros o. unfold probability.
    destruct (o_cache o !! spamcount r ≫= _); [apply same_training_refl|].
    destruct (prob_formula _ _ _); simpl; [|apply same_training_refl].
    by repeat split.
  Qed.

  Lemma untouched_get w : untouched (on_store (bk_get mem_backend w)).
  Proof. intros o. unfold on_store; simpl. by repeat split. Qed.

  Lemma untouched_worddistance w : untouched (worddistanceget mem_backend w).
  Proof.
    apply untouched_bind; [apply untouched_get|]. intros [r|].
    - apply untouched_bind; [apply untouched_probability|]. intros; apply untouched_ret.
    - apply untouched_bind; [apply untouched_ret|]. intros; apply untouched_ret.
  Qed.

  Lemma untouched_mmap {B C} (l : list B) (f : B -> M mobj C) :
    (forall x, untouched (f x)) -> untouched (mmap l f).
  Proof.
    intros Hf. induction l as [|x l IH]; simpl; [apply untouched_ret|].
    apply untouched_bind; [apply Hf|]. intros y.
    apply untouched_bind; [apply IH|]. intros; apply untouched_ret.
  Qed.

  Lemma untouched_consider w idx acc : untouched (consider mem_backend w idx acc).
  Proof.
    destruct acc as [seen raw]. unfold consider.
    destruct (decide (w ∈ seen)); [apply untouched_ret|].
    apply untouched_bind; [apply untouched_worddistance|]. intros; apply untouched_ret.
  Qed.

  Lemma untouched_bigram_raw l : forall i last pair acc,
    untouched (bigram_raw mem_backend i last pair l acc).
  Proof.
    induction l as [|x l IH]; intros i last pair acc; simpl; [apply untouched_ret|].
    apply untouched_bind; [apply untouched_consider|]. intros acc1.
    apply untouched_bind; [apply untouched_consider|]. intros acc2. apply IH.
  Qed.

  Lemma untouched_getclues s : untouched (getclues mem_backend it s).
  Proof.
    intros o. unfold getclues. destruct (o_bigrams o) as [[]|].
    - revert o. apply untouched_bind; [apply untouched_bigram_raw|].
      intros acc o. apply same_training_refl.
    - revert o. apply untouched_bind; [apply untouched_mmap, untouched_worddistance|].
      intros acc o. apply same_training_refl.
    - apply same_training_refl.
  Qed.

  Lemma untouched_spamprob_evidence s : untouched (spamprob_evidence mem_backend it s).
  Proof.
    apply untouched_bind; [apply untouched_getclues|]. intros x o. apply same_training_refl.
  Qed.

  Lemma untouched_spamprob s : untouched (spamprob mem_backend it s).
  Proof.
    apply untouched_bind; [apply untouched_getclues|]. intros x o. apply same_training_refl.
  Qed.

  (** ** Histories *)

  Lemma run_app h1 h2 (o : mobj) :
    run mem_backend it (h1 ++ h2) o =
    let '(o1, r1) := run mem_backend it h1 o in
    let '(o2, r2) := run mem_backend it h2 o1 in (o2, r1 ++ r2).
  Proof.
    revert o. induction h1 as [|c h1 IH]; intros o; simpl.
    - by destruct (run mem_backend it h2 o).
    - destruct (run_call mem_backend it c o) as [o' r].
      rewrite IH. destruct (run mem_backend it h1 o') as [o1 r1].
      by destruct (run mem_backend it h2 o1) as [o2 r2].
  Qed.

  (** *** C04: unrestricted histories *)

  Definition wf_record (r : winfo) : Prop :=
    (0 <= spamcount r)%Z /\ (0 <= hamcount r)%Z /\ (spamcount r <> 0 \/ hamcount r <> 0)%Z.

  Definition wf_obj (o : mobj) : Prop :=
    (0 <= o_nspam o)%Z /\ (0 <= o_nham o)%Z /\
    forall w r, o_store o !! w = Some r -> wf_record r.

  Lemma wf_bump b r : wf_record r -> wf_record (bump b r).
  Proof. unfold wf_record; destruct b; simpl; lia. Qed.

  Lemma wf_bump_new b : wf_record (bump b wi_new).
  Proof. unfold wf_record; destruct b; simpl; lia. Qed.

  Lemma is_zero_spec r : is_zero r = true <-> (hamcount r = 0 /\ spamcount r = 0)%Z.
  Proof. unfold is_zero. rewrite andb_true_iff, !Z.eqb_eq. done. Qed.

  Lemma wf_unbump_opt b r r' :
    (forall r0, r = Some r0 -> wf_record r0) -> unbump_opt b r = Some r' -> wf_record r'.
  Proof.
    intros Hr. destruct r as [r|]; [|done]. simpl.
    destruct (is_zero (unbump b r)) eqn:Hz; [done|]. intros [= <-].
    specialize (Hr r eq_refl).
    assert (~ (hamcount (unbump b r) = 0 /\ spamcount (unbump b r) = 0)%Z) as Hnz.
    { rewrite <- is_zero_spec. by rewrite Hz. }
    unfold wf_record, unbump in *.
    destruct b; [destruct (Z.ltb_spec 0 (spamcount r))|destruct (Z.ltb_spec 0 (hamcount r))];
      simpl in *; lia.
  Qed.

  Lemma learn_wf s b (o : mobj) : wf_obj o -> wf_obj (fst (learn mem_backend it s b o)).
  Proof.
    intros (Hs&Hh&Hw). destruct (o_bigrams o) as [bg|] eqn:Hbg.
    2:{ unfold learn. rewrite Hbg. simpl. by split_and!. }
    destruct (learn_mem s b bg o Hbg) as (m'&->&Hl). simpl.
    unfold wf_obj; simpl. split_and!; [destruct b; lia..|].
    intros w r. rewrite Hl. destruct (bool_decide _); [|apply Hw].
    intros [= <-]. destruct (o_store o !! w) as [r0|] eqn:Hr; simpl;
      [apply wf_bump; eauto|apply wf_bump_new].
  Qed.

  Lemma unlearn_wf s b (o : mobj) : wf_obj o -> wf_obj (fst (unlearn mem_backend it s b o)).
  Proof.
    intros (Hs&Hh&Hw). destruct (o_bigrams o) as [bg|] eqn:Hbg.
    2:{ unfold unlearn. rewrite Hbg. simpl. by split_and!. }
    destruct (Z.le_gt_cases (if b then o_nspam o else o_nham o) 0) as [Hz|Hp].
    - rewrite (unlearn_mem_zero s b bg o) by done. by split_and!.
    - destruct (unlearn_mem_pos s b bg o Hbg Hp) as (m'&->&Hl). simpl.
      unfold wf_obj; simpl. split_and!; [destruct b; lia..|].
      intros w r. rewrite Hl. destruct (bool_decide _); [|apply Hw].
      apply wf_unbump_opt. intros; eauto.
  Qed.

  Lemma same_training_wf (o1 o2 : mobj) : same_training o1 o2 -> wf_obj o2 -> wf_obj o1.
  Proof. intros (H1&H2&H3&H4). unfold wf_obj. by rewrite H1, H2, H3. Qed.

  Lemma run_call_wf c (o : mobj) : wf_obj o -> wf_obj (fst (run_call mem_backend it c o)).
  Proof.
    intros H. destruct c as [s b|s b|s]; simpl.
    - pose proof (learn_wf s b o H). by destruct (learn mem_backend it s b o).
    - pose proof (unlearn_wf s b o H). by destruct (unlearn mem_backend it s b o).
    - pose proof (untouched_spamprob_evidence s o) as Hu.
      destruct (spamprob_evidence mem_backend it s o); simpl in *.
      eapply same_training_wf; eauto.
  Qed.

  Lemma run_wf h : forall (o : mobj), wf_obj o -> wf_obj (fst (run mem_backend it h o)).
  Proof.
    induction h as [|c h IH]; intros o Ho; simpl; [done|].
    pose proof (run_call_wf c o Ho) as H1.
    destruct (run_call mem_backend it c o) as [o' r]; simpl in *.
    specialize (IH o' H1). by destruct (run mem_backend it h o').
  Qed.

  Lemma new_wf bg : wf_obj (c_new bg ∅ : mobj).
  Proof. unfold wf_obj; simpl. split_and!; [lia..|]. intros w r. by rewrite lookup_empty. Qed.

  Lemma reachable_wf bg h : wf_obj (fst (run mem_backend it h (c_new bg ∅ : mobj))).
  Proof. apply run_wf, new_wf. Qed.

  Lemma run_call_bigrams c (o : mobj) :
    o_bigrams (fst (run_call mem_backend it c o)) = o_bigrams o.
  Proof.
    destruct c as [s b|s b|s]; simpl.
    - unfold learn. destruct (o_bigrams o) as [[]|] eqn:Hbg; [| |done].
      + destruct (add_msg_mem (enhance s) b o) as (m'&->&_); done.
      + destruct (add_msg_mem (elems s) b o) as (m'&->&_); done.
    - destruct (o_bigrams o) as [bg|] eqn:Hbg.
      2:{ unfold unlearn. by rewrite Hbg. }
      destruct (Z.le_gt_cases (if b then o_nspam o else o_nham o) 0) as [Hz|Hp].
      + by rewrite (unlearn_mem_zero s b bg o).
      + destruct (unlearn_mem_pos s b bg o Hbg Hp) as (m'&->&_). done.
    - pose proof (untouched_spamprob_evidence s o) as (_&_&_&Hu).
      by destruct (spamprob_evidence mem_backend it s o).
  Qed.

  Lemma run_bigrams h : forall (o : mobj),
    o_bigrams (fst (run mem_backend it h o)) = o_bigrams o.
  Proof.
    induction h as [|c h IH]; intros o; simpl; [done|].
    pose proof (run_call_bigrams c o) as H1.
    destruct (run_call mem_backend it c o) as [o' r]; simpl in *.
    specialize (IH o'). destruct (run mem_backend it h o'); simpl in *. congruence.
  Qed.

  (** *** C02: unlearn after learn *)

  Lemma unbump_bump b r : wf_record r -> unbump_opt b (Some (bump b r)) = Some r.
  Proof.
    intros (H1&H2&H3). simpl.
    assert (unbump b (bump b r) = r) as E.
    { destruct r as [x y]; unfold unbump, bump; destruct b; simpl in *;
        match goal with |- context [(0 <? ?z)%Z] => destruct (Z.ltb_spec 0 z) end;
        try lia; f_equal; lia. }
    rewrite E. destruct (is_zero r) eqn:Hz; [|done].
    apply is_zero_spec in Hz. lia.
  Qed.

  Lemma unbump_bump_new b : unbump_opt b (Some (bump b wi_new)) = None.
  Proof. by destruct b. Qed.

  Lemma learn_unlearn s b (o : mobj) bg :
    wf_obj o -> o_bigrams o = Some bg -> exists o1 o2,
    learn mem_backend it s b o = (o1, Ok tt) /\
    unlearn mem_backend it s b o1 = (o2, Ok tt) /\ same_training o2 o.
  Proof.
    intros (Hs&Hh&Hw) Hbg.
    destruct (learn_mem s b bg o Hbg) as (m1&->&Hl1).
    set (o1 := Obj (Some bg) _ _ ∅ m1).
    assert (0 < (if b then o_nspam o1 else o_nham o1))%Z as Hp.
    { subst o1; destruct b; simpl; lia. }
    destruct (unlearn_mem_pos s b bg o1 eq_refl Hp) as (m2&E&Hl2).
    exists o1. eexists. split; [done|]. split; [exact E|].
    split_and!; simpl; [subst o1; destruct b; simpl; lia..| |].
    - apply map_eq. intros w. rewrite Hl2. subst o1; simpl. rewrite !Hl1.
      destruct (bool_decide _); [|done].
      destruct (o_store o !! w) as [r|] eqn:Hr; simpl default.
      + apply unbump_bump. eauto.
      + apply unbump_bump_new.
    - done.
  Qed.

  Lemma reachable_learn_unlearn bg h s b :
    let o := fst (run mem_backend it h (c_new bg ∅ : mobj)) in
    exists o1 o2, learn mem_backend it s b o = (o1, Ok tt) /\
      unlearn mem_backend it s b o1 = (o2, Ok tt) /\ same_training o2 o.
  Proof.
    intros o. apply (learn_unlearn s b o bg).
    - apply reachable_wf.
    - unfold o. by rewrite run_bigrams.
  Qed.

  (** *** C01: matched histories *)

  Definition refines (bg : bool) (o : mobj) (ms : list message) : Prop :=
    o_bigrams o = Some bg /\
    o_nspam o = total true ms /\ o_nham o = total false ms /\
    forall w, o_store o !! w = expected_record ms w.

  Lemma containing_nonneg b w ms : (0 <= containing b w ms)%Z.
  Proof.
    induction ms as [|[ws b'] ms IH]; simpl; [lia|].
    destruct (eqb b b' && bool_decide (w ∈ ws)); lia.
  Qed.

  Lemma total_nonneg b ms : (0 <= total b ms)%Z.
  Proof.
    induction ms as [|[ws b'] ms IH]; simpl; [lia|]. destruct (eqb b b'); lia.
  Qed.

  Lemma containing_le_total b w ms : (containing b w ms <= total b ms)%Z.
  Proof.
    induction ms as [|[ws b'] ms IH]; simpl; [lia|].
    destruct (eqb b b'), (bool_decide (w ∈ ws)); simpl; lia.
  Qed.

  Lemma containing_app b w ms1 ms2 :
    containing b w (ms1 ++ ms2) = (containing b w ms1 + containing b w ms2)%Z.
  Proof. induction ms1 as [|[ws b'] ms1 IH]; simpl; lia. Qed.

  Lemma total_app b ms1 ms2 : total b (ms1 ++ ms2) = (total b ms1 + total b ms2)%Z.
  Proof. induction ms1 as [|[ws b'] ms1 IH]; simpl; lia. Qed.

  Lemma expected_add ws b ms w :
    expected_record ((ws, b) :: ms) w =
    if bool_decide (w ∈ ws) then Some (bump b (default wi_new (expected_record ms w)))
    else expected_record ms w.
  Proof.
    unfold expected_record. simpl.
    pose proof (containing_nonneg true w ms). pose proof (containing_nonneg false w ms).
    destruct (bool_decide (w ∈ ws)); destruct b; simpl; try done.
    - destruct (Z.eqb_spec (1 + containing true w ms) 0); [lia|]. simpl.
      destruct (Z.eqb_spec (containing true w ms) 0) as [E1|], (Z.eqb_spec (containing false w ms) 0) as [E2|];
        simpl; rewrite ?E1, ?E2; do 2 f_equal; lia.
    - destruct (Z.eqb_spec (1 + containing false w ms) 0); [lia|].
      rewrite andb_false_r.
      destruct (Z.eqb_spec (containing true w ms) 0) as [E1|], (Z.eqb_spec (containing false w ms) 0) as [E2|];
        simpl; rewrite ?E1, ?E2; do 2 f_equal; lia.
  Qed.

  Lemma expected_perm ms1 m ms2 w :
    expected_record (ms1 ++ m :: ms2) w = expected_record (m :: ms1 ++ ms2) w.
  Proof.
    assert (forall b, containing b w (ms1 ++ m :: ms2) = containing b w (m :: ms1 ++ ms2)) as E.
    { intros b. change (m :: ms1 ++ ms2) with ([m] ++ ms1 ++ ms2).
      change (m :: ms2) with ([m] ++ ms2). rewrite !containing_app. lia. }
    unfold expected_record. by rewrite !E.
  Qed.

  Lemma total_perm b ms1 m ms2 : total b (ms1 ++ m :: ms2) = total b (m :: ms1 ++ ms2).
  Proof.
    change (m :: ms1 ++ ms2) with ([m] ++ ms1 ++ ms2).
    change (m :: ms2) with ([m] ++ ms2). rewrite !total_app. lia.
  Qed.

  Lemma expected_wf ms w r : expected_record ms w = Some r -> wf_record r.
  Proof.
    unfold expected_record.
    pose proof (containing_nonneg true w ms). pose proof (containing_nonneg false w ms).
    destruct (Z.eqb_spec (containing true w ms) 0), (Z.eqb_spec (containing false w ms) 0);
      simpl; intros [= <-]; unfold wf_record; simpl; lia.
  Qed.

  Lemma expected_remove ws b ms w :
    unbump_opt b (expected_record ((ws, b) :: ms) w) =
    if bool_decide (w ∈ ws) then expected_record ms w
    else unbump_opt b (expected_record ms w).
  Proof.
    rewrite expected_add. destruct (bool_decide (w ∈ ws)); [|done].
    destruct (expected_record ms w) as [r|] eqn:Hr; simpl default.
    - apply unbump_bump. eapply expected_wf; eauto.
    - apply unbump_bump_new.
  Qed.

  Lemma refines_learn bg o ms s b ws :
    refines bg o ms -> (forall w, w ∈ ws <-> tokens_of bg s w) ->
    exists o', learn mem_backend it s b o = (o', Ok tt) /\ refines bg o' ((ws, b) :: ms).
  Proof.
    intros (Hbg&Hs&Hh&Hw) Hws.
    destruct (learn_mem s b bg o Hbg) as (m'&->&Hl).
    eexists; split; [done|]. split_and!; simpl; [done|destruct b; simpl; lia..|].
    intros w. rewrite Hl, expected_add, Hw.
    by rewrite (bool_decide_ext (w ∈ toks bg s) (w ∈ ws)) by (rewrite toks_spec; symmetry; apply Hws).
  Qed.

  Lemma refines_unlearn bg o (ms1 : list message) ws b (ms2 : list message) s :
    refines bg o (ms1 ++ (ws, b) :: ms2) -> (forall w, w ∈ ws <-> tokens_of bg s w) ->
    exists o', unlearn mem_backend it s b o = (o', Ok tt) /\ refines bg o' (ms1 ++ ms2).
  Proof.
    intros (Hbg&Hs&Hh&Hw) Hws.
    rewrite total_perm in Hs, Hh. simpl in Hs, Hh.
    pose proof (total_nonneg true (ms1 ++ ms2)). pose proof (total_nonneg false (ms1 ++ ms2)).
    assert (0 < (if b then o_nspam o else o_nham o))%Z as Hp.
    { destruct b; simpl in *; lia. }
    destruct (unlearn_mem_pos s b bg o Hbg Hp) as (m'&->&Hl).
    eexists; split; [done|]. split_and!; simpl; [done|destruct b; simpl in *; lia..|].
    intros w. rewrite Hl, Hw, expected_perm.
    rewrite (bool_decide_ext (w ∈ toks bg s) (w ∈ ws)) by (rewrite toks_spec; symmetry; apply Hws).
    destruct (bool_decide (w ∈ ws)) eqn:E.
    - by rewrite expected_remove, E.
    - by rewrite expected_add, E.
  Qed.

  Lemma matched_refines bg h ms : matched bg h ms ->
    let '(o, rs) := run mem_backend it h (c_new bg ∅ : mobj) in
    refines bg o ms /\ Forall training_ok rs.
  Proof.
    induction 1 as [|h ms s b ws Hm IH Hws|h ms1 ws b ms2 s Hm IH Hws|h ms s Hm IH].
    - simpl. split; [|constructor]. by split_and!.
    - rewrite run_app. destruct (run mem_backend it h (c_new bg ∅ : mobj)) as [o rs].
      destruct IH as [Hr Hf]. simpl.
      destruct (refines_learn bg o ms s b ws Hr Hws) as (o'&->&Hr'). split; [done|].
      apply Forall_app; split; [done|]. by repeat constructor.
    - rewrite run_app. destruct (run mem_backend it h (c_new bg ∅ : mobj)) as [o rs].
      destruct IH as [Hr Hf]. simpl.
      destruct (refines_unlearn bg o ms1 ws b ms2 s Hr Hws) as (o'&->&Hr'). split; [done|].
      apply Forall_app; split; [done|]. by repeat constructor.
    - rewrite run_app. destruct (run mem_backend it h (c_new bg ∅ : mobj)) as [o rs].
      destruct IH as [Hr Hf]. simpl.
      pose proof (untouched_spamprob_evidence s o) as (H1&H2&H3&H4).
      destruct (spamprob_evidence mem_backend it s o) as [o' r]; simpl in *. split.
      + destruct Hr as (?&?&?&Hw). split_and!; [congruence..|]. intros w. by rewrite H3.
      + apply Forall_app; split; [done|]. by repeat constructor.
  Qed.

  (** *** C06 *)
  Lemma learn_frame bg h s b :
    let o := fst (run mem_backend it h (c_new bg ∅ : mobj)) in
    exists o', learn mem_backend it s b o = (o', Ok tt) /\
      total_of b o' = (total_of b o + 1)%Z /\ total_of (negb b) o' = total_of (negb b) o /\
      (forall w, ~ tokens_of bg s w -> o_store o' !! w = o_store o !! w) /\
      (forall w, tokens_of bg s w ->
         count b (o_store o' !! w) = (count b (o_store o !! w) + 1)%Z /\
         count (negb b) (o_store o' !! w) = count (negb b) (o_store o !! w)).
  Proof.
    intros o.
    assert (o_bigrams o = Some bg) as Hbg by (unfold o; by rewrite run_bigrams).
    destruct (learn_mem s b bg o Hbg) as (m'&->&Hl).
    eexists. split; [done|]. cbn [o_store]. split_and!.
    - by destruct b.
    - by destruct b.
    - intros w Hw. rewrite Hl. rewrite bool_decide_eq_false_2; [done|].
      by rewrite toks_spec.
    - intros w Hw. rewrite Hl. rewrite bool_decide_eq_true_2 by by rewrite toks_spec.
      destruct (o_store o !! w) as [r|]; destruct b; simpl; lia.
  Qed.

  Lemma unlearn_frame bg h s b o' :
    let o := fst (run mem_backend it h (c_new bg ∅ : mobj)) in
    unlearn mem_backend it s b o = (o', Ok tt) ->
      total_of b o' = (total_of b o - 1)%Z /\ total_of (negb b) o' = total_of (negb b) o /\
      (forall w, ~ tokens_of bg s w -> o_store o' !! w = o_store o !! w) /\
      (forall w, tokens_of bg s w ->
         count b (o_store o' !! w) = Z.max 0 (count b (o_store o !! w) - 1) /\
         count (negb b) (o_store o' !! w) = count (negb b) (o_store o !! w)).
  Proof.
    intros o Hu.
    assert (o_bigrams o = Some bg) as Hbg by (unfold o; by rewrite run_bigrams).
    assert (wf_obj o) as (_&_&Hwf) by apply reachable_wf.
    destruct (Z.le_gt_cases (if b then o_nspam o else o_nham o) 0) as [Hz|Hp].
    { rewrite (unlearn_mem_zero s b bg o Hbg Hz) in Hu. simplify_eq. }
    destruct (unlearn_mem_pos s b bg o Hbg Hp) as (m'&E&Hl).
    rewrite E in Hu. simplify_eq. cbn [o_store]. split_and!.
    - by destruct b.
    - by destruct b.
    - intros w Hw. rewrite Hl. rewrite bool_decide_eq_false_2; [done|].
      by rewrite toks_spec.
    - intros w Hw. rewrite Hl. rewrite bool_decide_eq_true_2 by by rewrite toks_spec.
      destruct (o_store o !! w) as [r|] eqn:Hr; simpl.
      2:{ split; [lia|done]. }
      destruct (Hwf w r Hr) as (H1&H2&H3).
      destruct r as [rs rh]; unfold unbump, is_zero; simpl in *.
      destruct b; simpl.
      + destruct (Z.ltb_spec 0 rs); simpl.
        * destruct (Z.eqb_spec rh 0), (Z.eqb_spec (rs - 1) 0); simpl; lia.
        * destruct (Z.eqb_spec rh 0), (Z.eqb_spec rs 0); simpl; lia.
      + destruct (Z.ltb_spec 0 rh); simpl.
        * destruct (Z.eqb_spec (rh - 1) 0), (Z.eqb_spec rs 0); simpl; lia.
        * destruct (Z.eqb_spec rh 0), (Z.eqb_spec rs 0); simpl; lia.
  Qed.

  (** *** C05 *)
  Lemma unlearn_refused s (b : bool) bg (o : mobj) : o_bigrams o = Some bg ->
    (forall o' e, unlearn mem_backend it s b o = (o', Err e) ->
       e = ValueError /\ ((if b then o_nspam o else o_nham o) <= 0)%Z /\ same_training o' o) /\
    (((if b then o_nspam o else o_nham o) <= 0)%Z ->
       exists o', unlearn mem_backend it s b o = (o', Err ValueError)).
  Proof.
    intros Hbg. split.
    - intros o' e H.
      destruct (Z.le_gt_cases (if b then o_nspam o else o_nham o) 0) as [Hz|Hp].
      + rewrite (unlearn_mem_zero s b bg o Hbg Hz) in H. simplify_eq. split_and!; try done.
      + destruct (unlearn_mem_pos s b bg o Hbg Hp) as (m'&E&_). rewrite E in H. done.
    - intros Hz. eexists. by rewrite (unlearn_mem_zero s b bg o Hbg Hz).
  Qed.
End training.

(** *** C03: order independence *)
Section order.
  Context {A : num}.
  Notation mobj := (obj A mstore).

  Definition train (it : set_order) (h : list (stream * bool)) (o : mobj) : mobj :=
    fst (run mem_backend it ((fun p => CLearn p.1 p.2) <$> h) o).

  Definition messages_of (bg : bool) (h : list (stream * bool)) : list message :=
    (fun p => (toks bg p.1, p.2)) <$> h.

  (** records after adding given numbers of messages *)
  Definition addcounts (r : option winfo) (ds dh : Z) : option winfo :=
    if (ds =? 0)%Z && (dh =? 0)%Z then r
    else Some (WI (spamcount (default wi_new r) + ds) (hamcount (default wi_new r) + dh)).

  Lemma train_closed it bg h : set_order_ok it -> forall (o : mobj), o_bigrams o = Some bg ->
    let o' := train it h o in let ms := messages_of bg h in
    o_bigrams o' = Some bg /\
    o_nspam o' = (o_nspam o + total true ms)%Z /\ o_nham o' = (o_nham o + total false ms)%Z /\
    forall w, o_store o' !! w = addcounts (o_store o !! w) (containing true w ms) (containing false w ms).
  Proof.
    intros Hit. induction h as [|[s b] h IH]; intros o Hbg; simpl.
    - unfold train; simpl. split_and!; [done|lia..|]. done.
    - unfold train; simpl.
      destruct (learn_mem it Hit s b bg o Hbg) as (m'&E&Hl). rewrite E.
      specialize (IH _ (eq_refl : o_bigrams (Obj (Some bg) (if b then o_nspam o + 1 else o_nspam o)%Z
           (if b then o_nham o else o_nham o + 1)%Z ∅ m' : mobj) = Some bg)).
      unfold train in IH. destruct (run _ _ _ _) as [o' rs]; simpl in *.
      destruct IH as (H1&H2&H3&H4). split_and!; [done|destruct b; simpl; lia..|].
      intros w. rewrite H4, Hl.
      set (ms := messages_of bg h).
      change ((fun p : stream * bool => (toks bg p.1, p.2)) <$> h) with ms.
      pose proof (containing_nonneg true w ms). pose proof (containing_nonneg false w ms).
      destruct (bool_decide (w ∈ toks bg s)); destruct b; simpl; try done.
      + unfold addcounts.
        destruct (Z.eqb_spec (1 + containing true w ms) 0); [lia|]. simpl.
        destruct (Z.eqb_spec (containing true w ms) 0) as [E1|], (Z.eqb_spec (containing false w ms) 0) as [E2|];
          simpl; unfold bump; simpl; rewrite ?E1, ?E2; do 2 f_equal; lia.
      + unfold addcounts.
        destruct (Z.eqb_spec (1 + containing false w ms) 0); [lia|]. rewrite andb_false_r.
        destruct (Z.eqb_spec (containing true w ms) 0) as [E1|], (Z.eqb_spec (containing false w ms) 0) as [E2|];
          simpl; unfold bump; simpl; rewrite ?E1, ?E2; do 2 f_equal; lia.
  Qed.

  Lemma containing_Permutation b w ms1 ms2 : ms1 ≡ₚ ms2 -> containing b w ms1 = containing b w ms2.
  Proof.
    induction 1 as [|[]|[] []|]; simpl; try lia.
  Qed.
  Lemma total_Permutation b ms1 ms2 : ms1 ≡ₚ ms2 -> total b ms1 = total b ms2.
  Proof. induction 1 as [|[]|[] []|]; simpl; try lia. Qed.

  Lemma containing_same bg b w h1 h2 :
    Forall2 (fun a b => a.2 = b.2 /\
      forall w, tokens_of bg a.1 w <-> tokens_of bg b.1 w) h1 h2 ->
    containing b w (messages_of bg h1) = containing b w (messages_of bg h2) /\
    total b (messages_of bg h1) = total b (messages_of bg h2).
  Proof.
    induction 1 as [|[s1 b1] [s2 b2] h1 h2 [Hb Hw] _ [IH1 IH2]]; simpl; [done|].
    simpl in Hb. subst b2.
    rewrite (bool_decide_ext (w ∈ toks bg s1) (w ∈ toks bg s2)) by (rewrite !toks_spec; apply Hw).
    split; [by rewrite IH1|by rewrite IH2].
  Qed.

  Lemma train_order it1 it2 bg h1 h2 (o : mobj) :
    set_order_ok it1 -> set_order_ok it2 -> o_bigrams o = Some bg ->
    same_messages bg h1 h2 -> same_training (train it1 h1 o) (train it2 h2 o).
  Proof.
    intros Hi1 Hi2 Hbg (h&Hp&Hf).
    destruct (train_closed it1 bg h1 Hi1 o Hbg) as (B1&S1&H1&W1).
    destruct (train_closed it2 bg h2 Hi2 o Hbg) as (B2&S2&H2&W2).
    assert (messages_of bg h1 ≡ₚ messages_of bg h) as Hp'.
    { by apply fmap_Permutation. }
    assert (forall b w, containing b w (messages_of bg h1) = containing b w (messages_of bg h2)) as Ec.
    { intros b w. rewrite (containing_Permutation b w _ _ Hp').
      by apply containing_same. }
    assert (forall b, total b (messages_of bg h1) = total b (messages_of bg h2)) as Et.
    { intros b. rewrite (total_Permutation b _ _ Hp').
      by eapply (containing_same bg b WNone). }
    split_and!; [rewrite S1, S2, Et; done|rewrite H1, H2, Et; done| |congruence].
    apply map_eq; intros w. rewrite W1, W2, !Ec. done.
  Qed.
End order.
