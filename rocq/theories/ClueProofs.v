(** * Lemmas about clue selection (C11 - C13, C15, C20, C22) *)
From Coq Require Import Lia.
From Verif Require Import Py NumModel ClassifierModel TrainSpec TrainProofs ScoreProofs
  SortProofs ScoreSpec.

(** ** Mapping a function that may raise *)

Lemma rmap_Ok {X Y} (f : X -> res Y) l ys :
  rmap f l = Ok ys <-> Forall2 (fun x y => f x = Ok y) l ys.
Proof.
  revert ys. induction l as [|x l IH]; intros ys; simpl.
  - split; [intros [= <-]; constructor|by inversion 1].
  - destruct (f x) as [y|e] eqn:E; simpl.
    2:{ split; [done|]. inversion 1; congruence. }
    destruct (rmap f l) as [ys'|e] eqn:E2; simpl.
    + split.
      * intros [= <-]. constructor; [done|]. by apply IH.
      * inversion 1 as [|? y' ? ys'' H1 H2]; subst. apply IH in H2. congruence.
    + split; [done|]. inversion 1 as [|? y' ? ys'' H1 H2]; subst. apply IH in H2. congruence.
Qed.

Lemma rmap_Err {X Y} (f : X -> res Y) l e :
  rmap f l = Err e -> exists x, x ∈ l /\ f x = Err e.
Proof.
  induction l as [|x l IH]; simpl; [done|].
  destruct (f x) as [y|e'] eqn:E; simpl.
  - destruct (rmap f l) as [ys|e'']; simpl; [done|]. intros [= ->].
    destruct IH as (z&?&?); [done|]. exists z. split; [by right|done].
  - intros [= ->]. exists x. split; [left|done].
Qed.

Lemma rmap_all {X Y} (f : X -> res Y) l :
  (forall x, x ∈ l -> exists y, f x = Ok y) -> exists ys, rmap f l = Ok ys.
Proof.
  intros H. destruct (rmap f l) as [ys|e] eqn:E; [eauto|].
  apply rmap_Err in E as (x&Hx&He). destruct (H x Hx) as [y Hy]. congruence.
Qed.

Lemma rmap_Permutation {X Y} (f : X -> res Y) l1 l2 ys1 : l1 ≡ₚ l2 ->
  rmap f l1 = Ok ys1 -> exists ys2, rmap f l2 = Ok ys2 /\ ys1 ≡ₚ ys2.
Proof.
  intros HP. revert ys1. induction HP as [|x l1 l2 HP IH|x y l|l1 l2 l3 HP1 IH1 HP2 IH2];
    intros ys1; simpl.
  - intros [= <-]. by exists [].
  - destruct (f x) as [y|e]; simpl; [|done].
    destruct (rmap f l1) as [ys|e] eqn:E; simpl; [|done]. intros [= <-].
    destruct (IH ys eq_refl) as (ys2&->&?). simpl. eexists. split; [done|]. by constructor.
  - destruct (f x), (f y); simpl; try done.
    destruct (rmap f l); simpl; [|done]. intros [= <-]. eexists. split; [done|]. constructor.
  - intros H1. destruct (IH1 _ H1) as (ys2&H2&P2). destruct (IH2 _ H2) as (ys3&H3&P3).
    exists ys3. split; [done|]. by etrans.
Qed.

Lemma Lfilter_Permutation {X} (f : X -> bool) l1 l2 : l1 ≡ₚ l2 ->
  List.filter f l1 ≡ₚ List.filter f l2.
Proof.
  induction 1 as [|x l1 l2 HP IH|x y l|l1 l2 l3 HP1 IH1 HP2 IH2]; simpl; auto.
  - destruct (f x); [by constructor|done].
  - destruct (f x), (f y); try done. constructor.
  - by etrans.
Qed.

Lemma elem_of_Lfilter {X} (f : X -> bool) l x :
  x ∈ List.filter f l <-> x ∈ l /\ f x = true.
Proof. rewrite !elem_of_list_In. apply filter_In. Qed.

Lemma NoDup_Lfilter {X} (f : X -> bool) l : NoDup l -> NoDup (List.filter f l).
Proof. rewrite !NoDup_ListNoDup. apply List.NoDup_filter. Qed.

Lemma NoDup_words_filter {A : num} (f : clue A -> bool) l :
  NoDup (c_word <$> l) -> NoDup (c_word <$> List.filter f l).
Proof.
  induction l as [|c l IH]; simpl; [done|].
  intros [Hc Hl]%NoDup_cons. destruct (f c); simpl; [|auto].
  apply NoDup_cons. split; [|auto].
  intros (c'&E&Hin)%elem_of_list_fmap. apply elem_of_Lfilter in Hin as [Hin _].
  apply Hc. apply elem_of_list_fmap. eauto.
Qed.

Lemma strongest_drop {A : num} (l : list (clue A)) :
  strongest l = drop (length l - MAX_DISCRIMINATORS) l.
Proof.
  unfold strongest. destruct (Nat.ltb_spec MAX_DISCRIMINATORS (length l)); [done|].
  by replace (length l - MAX_DISCRIMINATORS) with 0 by lia.
Qed.

Lemma strongest_length {A : num} (l : list (clue A)) : length (strongest l) <= MAX_DISCRIMINATORS.
Proof. rewrite strongest_drop, drop_length. unfold MAX_DISCRIMINATORS. lia. Qed.

Lemma strongest_short {A : num} (l : list (clue A)) :
  length l <= MAX_DISCRIMINATORS -> strongest l = l.
Proof. intros H. rewrite strongest_drop. by replace (length l - MAX_DISCRIMINATORS) with 0 by lia. Qed.

Lemma strongest_elem {A : num} (l : list (clue A)) c : c ∈ strongest l -> c ∈ l.
Proof.
  rewrite strongest_drop. intros H.
  rewrite <- (take_drop (length l - MAX_DISCRIMINATORS) l). apply elem_of_app. by right.
Qed.

Lemma strongest_omitted {A : num} (HA : total_num A) (l : list (clue A)) (c : clue A) :
  StronglySorted (fun x y => clue_leb x y = true) l -> c ∈ l -> c ∉ strongest l ->
  length (strongest l) = MAX_DISCRIMINATORS /\
    forall c', c' ∈ strongest l -> clue_leb c c' = true.
Proof.
  rewrite strongest_drop. intros Hs Hc Hn.
  set (k := length l - MAX_DISCRIMINATORS) in *.
  assert (c ∈ take k l) as Ht.
  { rewrite <- (take_drop k l) in Hc. apply elem_of_app in Hc as [?|?]; done. }
  split.
  - rewrite drop_length. destruct (decide (k = 0)) as [E|E].
    + rewrite E in Ht. simpl in Ht. by apply elem_of_nil in Ht.
    + unfold k in *. lia.
  - intros c' Hc'. rewrite <- (take_drop k l) in Hs.
    by apply (elem_of_StronglySorted_app _ _ _ _ _ Hs).
Qed.

Lemma strongest_sorted {A : num} (l : list (clue A)) :
  StronglySorted (fun x y => clue_leb x y = true) l ->
  StronglySorted (fun x y => clue_leb x y = true) (strongest l).
Proof.
  rewrite strongest_drop. intros Hs.
  rewrite <- (take_drop (length l - MAX_DISCRIMINATORS) l) in Hs.
  by apply StronglySorted_app_inv_r in Hs.
Qed.

Lemma strongest_nodup {A : num} (l : list (clue A)) :
  NoDup (c_word <$> l) -> NoDup (c_word <$> strongest l).
Proof.
  rewrite strongest_drop. intros H.
  rewrite <- (take_drop (length l - MAX_DISCRIMINATORS) l), fmap_app in H.
  by apply NoDup_app in H as (_&_&H).
Qed.

(** ** Clues of words *)
Section words.
  Context {A : num} (HA : total_num A).
  Context (lk : pyword -> option winfo) (ns nh : Z).

  Lemma word_clue_Ok w c :
    word_clue (A:=A) lk ns nh w = Ok c <->
    c_word c = w /\ c_rec c = lk w /\ word_prob lk ns nh w = Ok (c_prob c) /\
    c_dist c = strength (c_prob c).
  Proof.
    unfold word_clue. destruct (word_prob lk ns nh w) as [p|e] eqn:E; simpl.
    - split.
      + intros [= <-]. done.
      + intros (H1&H2&H3&H4). simplify_eq. destruct c; simpl in *. by subst.
    - split; [done|]. by intros (_&_&?&_).
  Qed.

  Lemma word_clue_total w p : word_prob (A:=A) lk ns nh w = Ok p ->
    word_clue lk ns nh w = Ok (Clue (strength p) p w (lk w)).
  Proof. intros H. unfold word_clue. by rewrite H. Qed.

  Lemma rmap_clue_words l tups : rmap (word_clue (A:=A) lk ns nh) l = Ok tups ->
    c_word <$> tups = l.
  Proof.
    rewrite rmap_Ok. induction 1 as [|w c l cs H1 H2 IH]; [done|].
    apply word_clue_Ok in H1 as [E _]. rewrite fmap_cons. by rewrite IH, E.
  Qed.

  Lemma rmap_clue_elem l tups c : rmap (word_clue (A:=A) lk ns nh) l = Ok tups ->
    c ∈ tups <-> c_word c ∈ l /\ word_clue lk ns nh (c_word c) = Ok c.
  Proof.
    rewrite rmap_Ok. induction 1 as [|w c' l cs H1 H2 IH]; simpl.
    - split; [by intros ?%elem_of_nil|by intros [?%elem_of_nil _]].
    - rewrite !elem_of_cons, IH. split.
      + intros [->|[? ?]]; [|auto]. pose proof H1 as H1'.
        apply word_clue_Ok in H1' as [-> _]. auto.
      + intros [[->|H] Hc]; [|auto]. left. congruence.
  Qed.

  Lemma clue_determined (c1 c2 : clue A) : c_word c1 = c_word c2 ->
    word_clue (A:=A) lk ns nh (c_word c1) = Ok c1 ->
    word_clue lk ns nh (c_word c2) = Ok c2 -> c1 = c2.
  Proof. intros ->. congruence. Qed.

  Lemma clue_anti (c1 c2 : clue A) :
    word_clue (A:=A) lk ns nh (c_word c1) = Ok c1 ->
    word_clue lk ns nh (c_word c2) = Ok c2 ->
    clue_leb c1 c2 = true -> clue_leb c2 c1 = true -> c1 = c2.
  Proof.
    intros H1 H2. rewrite !clue_leb_spec by done. intros L1 L2.
    destruct (cle_antisym HA _ _ L1 L2) as (_&_&E). by apply clue_determined.
  Qed.

  (** The unigram branch *)
  Lemma pclues_uni_spec it ws (cs : list (clue A)) : set_order_ok it ->
    pclues_uni it lk ns nh ws = Ok cs ->
    NoDup (c_word <$> cs) /\ length cs <= MAX_DISCRIMINATORS /\
    StronglySorted (fun x y => clue_leb x y = true) cs /\
    (forall c, c ∈ cs -> c_word c ∈ ws /\ word_clue lk ns nh (c_word c) = Ok c /\
    significant c = true) /\
    (forall c : clue A, c_word c ∈ ws -> word_clue lk ns nh (c_word c) = Ok c ->
       c_word c ∉ c_word <$> cs -> significant c = true ->
       length cs = MAX_DISCRIMINATORS /\ forall c', c' ∈ cs -> clue_leb c c' = true).
  Proof.
    intros Hit. unfold pclues_uni.
    destruct (rmap (word_clue lk ns nh) (it ws)) as [tups|] eqn:Et; simpl; [|done].
    unfold sort_clues. destruct (any_clash _); simpl; [done|]. intros [= <-].
    pose proof (rmap_clue_words _ _ Et) as Hw.
    assert (NoDup (c_word <$> tups)) as Hnd by (rewrite Hw; apply Hit).
    set (l := isort clue_leb (List.filter significant tups)).
    assert (l ≡ₚ List.filter significant tups) as Hp by apply isort_Permutation.
    assert (StronglySorted (fun x y => clue_leb x y = true) l) as Hs.
    { apply isort_sorted; [apply clue_leb_total, HA|apply clue_leb_trans, HA]. }
    assert (forall c : clue A, c ∈ l <-> c_word c ∈ ws /\ word_clue lk ns nh (c_word c) = Ok c /\
    significant c = true) as Hel.
    { intros c. rewrite Hp, elem_of_Lfilter, (rmap_clue_elem _ _ c Et).
      rewrite (proj2 (Hit ws) (c_word c)). tauto. }
    assert (NoDup (c_word <$> l)) as Hndl.
    { rewrite Hp. by apply NoDup_words_filter. }
    split_and!.
    - by apply strongest_nodup.
    - apply strongest_length.
    - by apply strongest_sorted.
    - intros c Hc%strongest_elem. by apply Hel.
    - intros c Hc1 Hc2 Hc3 Hc4. apply strongest_omitted; [done|done| |].
      + by apply Hel.
      + intros Hc. apply Hc3. apply elem_of_list_fmap. eauto.
  Qed.

  Lemma pclues_uni_same it1 it2 ws1 ws2 : set_order_ok it1 -> set_order_ok it2 ->
    (forall w, w ∈ ws1 <-> w ∈ ws2) ->
    same_result (pclues_uni (A:=A) it1 lk ns nh ws1) (pclues_uni it2 lk ns nh ws2).
  Proof.
    intros H1 H2 Hws.
    assert (it1 ws1 ≡ₚ it2 ws2) as HP.
    { apply NoDup_Permutation; [apply H1|apply H2|]. intros w.
      by rewrite (proj2 (H1 ws1) w), (proj2 (H2 ws2) w). }
    unfold pclues_uni.
    destruct (rmap (word_clue lk ns nh) (it1 ws1)) as [t1|e1] eqn:E1.
    - destruct (rmap_Permutation _ _ _ _ HP E1) as (t2&E2&Hp). rewrite E2. simpl.
      assert (List.filter significant t1 ≡ₚ List.filter significant t2) as Hpf
        by by apply Lfilter_Permutation.
      assert (NoDup (c_word <$> List.filter significant t1)) as N1.
      { apply NoDup_words_filter. rewrite (rmap_clue_words _ _ E1). apply H1. }
      assert (NoDup (c_word <$> List.filter significant t2)) as N2 by by rewrite <- Hpf.
      assert (any_clash (List.filter significant t1) = any_clash (List.filter significant t2)) as Hc.
      { apply eq_true_iff_eq. rewrite !any_clash_spec by done.
        setoid_rewrite Hpf. done. }
      unfold sort_clues. rewrite Hc. destruct (any_clash (List.filter significant t2)); simpl; [done|].
      f_equal. apply isort_unique; [apply clue_leb_total, HA|apply clue_leb_trans, HA| |done].
      intros x y [Hx _]%elem_of_Lfilter [Hy _]%elem_of_Lfilter.
      apply (rmap_clue_elem _ _ _ E1) in Hx as [_ Hx].
      apply (rmap_clue_elem _ _ _ E1) in Hy as [_ Hy]. by apply clue_anti.
    - destruct (rmap (word_clue lk ns nh) (it2 ws2)) as [t2|e2] eqn:E2; simpl; [|done].
      destruct (rmap_Permutation _ _ _ _ (symmetry HP) E2) as (t1&E1'&_). congruence.
  Qed.

  Lemma pclues_uni_TypeError it ws : set_order_ok it ->
    (forall w, w ∈ ws -> exists p, word_prob (A:=A) lk ns nh w = Ok p) ->
    (pclues_uni (A:=A) it lk ns nh ws = Err TypeError <->
     exists w1 w2 p1 p2, w1 ∈ ws /\ w2 ∈ ws /\ wkind w1 <> wkind w2 /\
    word_prob (A:=A) lk ns nh w1 = Ok p1 /\ word_prob lk ns nh w2 = Ok p2 /\
    p1 = p2 /\ strong p1 = true) /\
    (forall e, pclues_uni (A:=A) it lk ns nh ws = Err e -> e = TypeError).
  Proof.
    intros Hit Hall. unfold pclues_uni.
    destruct (rmap_all (word_clue (A:=A) lk ns nh) (it ws)) as [tups Et].
    { intros w Hw. apply (proj2 (Hit ws)) in Hw. destruct (Hall w Hw) as [p Hp].
      rewrite (word_clue_total w p Hp). eauto. }
    rewrite Et. simpl. unfold sort_clues.
    assert (NoDup (c_word <$> List.filter significant tups)) as N.
    { apply NoDup_words_filter. rewrite (rmap_clue_words _ _ Et). apply Hit. }
    pose proof (any_clash_spec HA _ N) as Hc.
    destruct (any_clash (List.filter significant tups)); simpl.
    - split; [|by intros e [= <-]]. split; [intros _|done].
      destruct (proj1 Hc eq_refl) as (a&b&Ha&Hb&Hk).
      apply elem_of_Lfilter in Ha as [Ha Sa]. apply elem_of_Lfilter in Hb as [Hb Sb].
      apply (rmap_clue_elem _ _ _ Et) in Ha as [Ha Ca].
      apply (rmap_clue_elem _ _ _ Et) in Hb as [Hb Cb].
      apply word_clue_Ok in Ca as (_&_&Pa&Da). apply word_clue_Ok in Cb as (_&_&Pb&Db).
      unfold kind_clash in Hk. rewrite !andb_true_iff, negb_true_iff, N.eqb_neq in Hk.
      destruct Hk as [[Hd Hp] Hk]. rewrite neq_true in Hp by done.
      exists (c_word a), (c_word b), (c_prob a), (c_prob b).
      split_and!; try done; [by apply (proj2 (Hit ws))..|].
      unfold significant in Sa. by rewrite Da in Sa.
    - split; [|done]. split; [done|].
      intros (w1&w2&p1&p2&Hw1&Hw2&Hk&P1&P2&<-&Hs). exfalso.
      enough (false = true) by done. apply Hc.
      exists (Clue (strength p1) p1 w1 (lk w1)), (Clue (strength p1) p1 w2 (lk w2)).
      split_and!.
      + apply elem_of_Lfilter. split; [|done]. apply (rmap_clue_elem _ _ _ Et). simpl.
        split; [by apply Hit|by apply word_clue_total].
      + apply elem_of_Lfilter. split; [|done]. apply (rmap_clue_elem _ _ _ Et). simpl.
        split; [by apply Hit|by apply word_clue_total].
      + unfold kind_clash. simpl. rewrite !neq_refl by done. simpl.
        apply negb_true_iff. by apply N.eqb_neq.
  Qed.
End words.
