(** * Lemmas about clue selection with bigrams (C13, C22) *)
From Coq Require Import Lia String.
From Verif Require Import Py NumModel ClassifierModel TrainSpec TrainProofs ScoreProofs
  SortProofs ScoreSpec ClueProofs.

Section bigrams.
  Context {A : num} (HA : total_num A).
  Context (lk : pyword -> option winfo) (ns nh : Z).
  Notation wclue := (word_clue (A:=A) lk ns nh).
  Notation cand := (clue A * list Z)%type.

  (** What the candidate loop maintains; [P w idx]: w may occur at idx. *)
  Record raw_inv (P : pyword -> list Z -> Prop) (acc : gset pyword * list cand) : Prop := {
    ri_nodup : NoDup ((fun x : cand => c_word x.1) <$> acc.2);
    ri_seen : forall x : cand, x ∈ acc.2 -> c_word x.1 ∈ acc.1;
    ri_clue : forall x : cand, x ∈ acc.2 ->
      wclue (c_word x.1) = Ok x.1 /\ significant x.1 = true /\ P (c_word x.1) x.2;
    ri_all : forall w, w ∈ acc.1 ->
      exists c, wclue w = Ok c /\ (significant c = true -> exists idx, (c, idx) ∈ acc.2)
  }.

  Lemma raw_inv_nil P : raw_inv P (∅, []).
  Proof.
    constructor; simpl.
    - constructor.
    - by intros x Hx%elem_of_nil.
    - by intros x Hx%elem_of_nil.
    - intros w Hw. set_solver.
  Qed.

  Lemma pconsider_inv P w idx acc acc' : raw_inv P acc -> P w idx ->
    pconsider lk ns nh w idx acc = Ok acc' ->
    raw_inv P acc' /\ w ∈ acc'.1 /\ acc.1 ⊆ acc'.1.
  Proof.
    intros [H1 H2 H3 H4] HP. destruct acc as [seen raw]. unfold pconsider.
    destruct (decide (w ∈ seen)) as [Hin|Hin].
    { intros [= <-]. split; [by constructor|]. by split. }
    destruct (wclue w) as [c|e] eqn:Ec; simpl; [|done]. intros [= <-]. simpl in *.
    pose proof Ec as Ec'. apply word_clue_Ok in Ec' as (Hcw&_&_&_).
    split; [|split; [set_solver|set_solver]].
    destruct (significant c) eqn:Es; constructor; simpl.
    - rewrite fmap_app. simpl. apply NoDup_app. split_and!; [done| |].
      + intros x Hx Hx'. apply elem_of_list_singleton in Hx' as ->.
        apply elem_of_list_fmap in Hx as (y&Ey&Hy). apply H2 in Hy. rewrite <- Ey, Hcw in Hy. done.
      + apply NoDup_singleton.
    - intros x [Hx|Hx]%elem_of_app.
      + apply H2 in Hx. set_solver.
      + apply elem_of_list_singleton in Hx as ->. simpl. rewrite Hcw. set_solver.
    - intros x [Hx|Hx]%elem_of_app; [by apply H3|].
      apply elem_of_list_singleton in Hx as ->. simpl. rewrite Hcw. done.
    - intros w' [->%elem_of_singleton|Hw]%elem_of_union.
      + exists c. split; [done|]. intros _. exists idx. apply elem_of_app. right. left.
      + destruct (H4 w' Hw) as (c'&?&Hc'). exists c'. split; [done|]. intros Hs.
        destruct (Hc' Hs) as [i Hi]. exists i. apply elem_of_app. by left.
    - done.
    - intros x Hx. apply H2 in Hx. set_solver.
    - done.
    - intros w' [->%elem_of_singleton|Hw]%elem_of_union.
      + exists c. split; [done|]. by rewrite Es.
      + auto.
  Qed.

  Definition phantom (ws : list pyword) (w : pyword) (idx : list Z) : Prop :=
    occurs ws w idx \/ (w = WNone /\ idx = [(-1)%Z; 0%Z] /\ ws <> []).

  Lemma pbigram_raw_inv l : forall pre last0 pair acc acc',
    let ws := pre ++ l in
    (pre = [] -> pair = WNone) ->
    (forall x, last pre = Some x -> x = last0) ->
    raw_inv (phantom ws) acc ->
    pbigram_raw lk ns nh (Z.of_nat (length pre)) last0 pair l acc = Ok acc' ->
    raw_inv (phantom ws) acc' /\ acc.1 ⊆ acc'.1 /\
    (forall i x, length pre <= i -> ws !! i = Some x -> x ∈ acc'.1) /\
    (forall i x y, length pre <= S i -> ws !! i = Some x -> ws !! S i = Some y ->
                   bigram x y ∈ acc'.1).
  Proof.
    induction l as [|x l IH]; intros pre last0 pair acc acc' ws Hpair Hlast Hinv; simpl.
    - intros [= <-]. subst ws. rewrite app_nil_r in *. split_and!; [done|done| |].
      + intros i x Hi Hx. apply lookup_lt_Some in Hx. lia.
      + intros i x y Hi Hx Hy. apply lookup_lt_Some in Hy. lia.
    - set (n := length pre) in *.
      set (pair' := if (Z.of_nat n =? 0)%Z then pair else bigram last0 x).
      assert (ws !! n = Some x) as Hwn by (unfold ws, n; by rewrite list_lookup_middle).
      destruct (pconsider lk ns nh x [Z.of_nat n] acc) as [acc1|e] eqn:E1; simpl; [|done].
      destruct (pconsider_inv (phantom ws) x [Z.of_nat n] acc acc1 Hinv) as (I1&S1&U1); [|done|].
      { left. left. by exists n. }
      destruct (pconsider lk ns nh pair' [(Z.of_nat n - 1)%Z; Z.of_nat n] acc1) as [acc2|e] eqn:E2;
        simpl; [|done].
      assert (n <> 0 -> ws !! (pred n) = Some last0) as Hpl.
      { intros Hn. unfold ws. rewrite lookup_app_l by (unfold n in *; lia).
        destruct (last pre) as [z|] eqn:Ez.
        - rewrite <- (Hlast z eq_refl). unfold n. by rewrite <- last_lookup.
        - apply last_None in Ez. unfold n in Hn. by rewrite Ez in Hn. }
      destruct (pconsider_inv (phantom ws) pair' [(Z.of_nat n - 1)%Z; Z.of_nat n] acc1 acc2 I1)
        as (I2&S2&U2); [|done|].
      { unfold pair'. destruct (Z.eqb_spec (Z.of_nat n) 0) as [E0|E0].
        - right. split_and!.
          + apply Hpair. unfold n in E0. destruct pre; [done|]. simpl in E0. lia.
          + by rewrite E0.
          + unfold ws. by destruct pre.
        - left. right. exists (pred n), last0, x. split_and!.
          + apply Hpl. lia.
          + replace (S (pred n)) with n by lia. done.
          + done.
          + f_equal; [lia|]. f_equal. lia. }
      intros Hrec.
      assert ((pre ++ [x]) ++ l = ws) as Ews by (unfold ws; by rewrite <- app_assoc).
      assert (Z.of_nat n + 1 = Z.of_nat (length (pre ++ [x])))%Z as Elen.
      { rewrite app_length. simpl. unfold n. lia. }
      rewrite Elen in Hrec.
      specialize (IH (pre ++ [x]) x pair' acc2 acc'). cbv zeta in IH. rewrite Ews in IH.
      destruct IH as (I3&U3&W3&B3); [by destruct pre| |done|done|].
      { intros z. rewrite last_snoc. by intros [= ->]. }
      rewrite app_length in W3, B3. simpl in W3, B3. fold n in W3, B3.
      split_and!; [done|set_solver| |].
      + intros i z Hi Hz. destruct (decide (i = n)) as [->|Hne].
        * assert (z = x) as -> by congruence. set_solver.
        * apply (W3 i); [lia|done].
      + intros i y z Hi Hy Hz. destruct (decide (S i = n)) as [Hs|Hne].
        * assert (z = x) as -> by congruence.
          rewrite <- Hs in Hpl. simpl in Hpl. specialize (Hpl ltac:(lia)).
          assert (y = last0) as -> by congruence.
          assert (pair' = bigram last0 x) as Epair.
          { unfold pair'. destruct (Z.eqb_spec (Z.of_nat n) 0); [lia|done]. }
          rewrite <- Epair. set_solver.
        * apply (B3 i); [lia|done|done].
  Qed.

  Lemma pbigram_raw_ok l : forall i last0 pair acc,
    (forall w, w ∈ bi_candidates i last0 pair l -> exists c, wclue w = Ok c) ->
    exists acc', pbigram_raw (A:=A) lk ns nh i last0 pair l acc = Ok acc'.
  Proof.
    assert (forall w idx acc, (exists c, wclue w = Ok c) ->
              exists acc', pconsider (A:=A) lk ns nh w idx acc = Ok acc') as Hc.
    { intros w idx [seen raw] [c Hc]. unfold pconsider.
      destruct (decide (w ∈ seen)); [eauto|]. rewrite Hc. simpl. eauto. }
    induction l as [|x l IH]; intros i last0 pair acc Hall; simpl in *; [eauto|].
    destruct (Hc x [i] acc) as [acc1 ->]; [apply Hall; left|]. simpl.
    destruct (Hc (if (i =? 0)%Z then pair else bigram last0 x) [(i - 1)%Z; i] acc1) as [acc2 ->].
    { apply Hall. right. left. }
    simpl. apply IH. intros w Hw. apply Hall. by do 2 right.
  Qed.

  Lemma bi_candidates_spec l : forall pre last0 pair w,
    (pre = [] -> pair = WNone) ->
    (forall x, last pre = Some x -> x = last0) ->
    w ∈ bi_candidates (Z.of_nat (length pre)) last0 pair l ->
    exists idx, phantom (pre ++ l) w idx.
  Proof.
    induction l as [|x l IH]; intros pre last0 pair w Hp Hl; simpl.
    - by intros ?%elem_of_nil.
    - set (n := length pre). intros [->|[->|Hw]%elem_of_cons]%elem_of_cons.
      + exists [Z.of_nat n]. left. left. exists n. split; [|done].
        by apply list_lookup_middle.
      + destruct (Z.eqb_spec (Z.of_nat n) 0) as [E0|E0].
        * exists [(-1)%Z; 0%Z]. right. split_and!; [|done|by destruct pre].
          apply Hp. destruct pre; [done|]. simpl in E0. unfold n in E0. simpl in E0. lia.
        * destruct (last pre) as [z|] eqn:Ez.
          2:{ apply last_None in Ez. unfold n in E0. by rewrite Ez in E0. }
          rewrite (Hl z eq_refl) in Ez.
          eexists. left. right. exists (pred n), last0, x. split_and!; [| |done|done].
          -- rewrite lookup_app_l by (unfold n in *; lia). unfold n. by rewrite <- last_lookup.
          -- replace (S (pred n)) with n by lia. by apply list_lookup_middle.
      + replace (Z.of_nat n + 1)%Z with (Z.of_nat (length (pre ++ [x]))) in Hw
          by (rewrite app_length; simpl; unfold n; lia).
        destruct (IH (pre ++ [x]) x (if (Z.of_nat n =? 0)%Z then pair else bigram last0 x) w)
          as [idx H]; [by destruct pre| |done|].
        { intros z. rewrite last_snoc. by intros [= ->]. }
        exists idx. by rewrite <- app_assoc in H.
  Qed.

  (** ** The greedy choice *)
  Lemma raw_leb_total (x y : cand) : raw_leb x y = true \/ raw_leb y x = true.
  Proof. apply (clue_leb_total HA). Qed.
  Lemma raw_leb_trans (x y z : cand) :
    raw_leb x y = true -> raw_leb y z = true -> raw_leb x z = true.
  Proof. apply (clue_leb_trans HA). Qed.

  Lemma tile_spec (raw : list cand) : forall seen,
    StronglySorted (fun x y => raw_leb y x = true) raw ->
    Forall (fun x : cand => NoDup x.2) raw ->
    let ch := tile seen raw in
    ch `sublist_of` raw /\
    NoDup (mjoin (snd <$> ch)) /\
    (forall i, i ∈ mjoin (snd <$> ch) -> i ∉ seen) /\
    (forall x, x ∈ raw -> x ∈ ch \/ (exists i, i ∈ x.2 /\ i ∈ seen) \/
       exists y i, y ∈ ch /\ i ∈ x.2 /\ i ∈ y.2 /\ raw_leb x y = true).
  Proof.
    induction raw as [|[c idx] raw IH]; intros seen Hs Hn; simpl.
    - split_and!; [constructor|constructor|by intros i ?%elem_of_nil|by intros x ?%elem_of_nil].
    - apply Forall_cons in Hn as [Hi Hn]. simpl in Hi.
      apply StronglySorted_inv in Hs as [Hs Hx].
      destruct (existsb (fun i => bool_decide (i ∈ seen)) idx) eqn:Ee.
      + destruct (IH seen Hs Hn) as (H1&H2&H3&H4).
        split_and!; [by constructor|done|done|].
        intros x [->|Hin]%elem_of_cons; [|by apply H4].
        right. left. apply existsb_exists in Ee as (i&Hi1&Hi2).
        exists i. split; [by apply elem_of_list_In|]. by apply bool_decide_eq_true in Hi2.
      + destruct (IH (list_to_set idx ∪ seen) Hs Hn) as (H1&H2&H3&H4).
        assert (forall i, i ∈ idx -> i ∉ seen) as Hfree.
        { intros i Hi1 Hi2. assert (existsb (fun i => bool_decide (i ∈ seen)) idx = true); [|congruence].
          apply existsb_exists. exists i. split; [by apply elem_of_list_In|].
          by apply bool_decide_eq_true. }
        split_and!.
        * by constructor.
        * simpl. apply NoDup_app. split_and!; [done| |done].
          intros i Hi1 Hi2. apply H3 in Hi2. set_solver.
        * simpl. intros i [Hi1|Hi1]%elem_of_app; [by apply Hfree|].
          apply H3 in Hi1. set_solver.
        * intros x [->|Hin]%elem_of_cons; [left; left|].
          destruct (H4 x Hin) as [?|[(i&Hi1&Hi2)|(y&i&?&?&?&?)]].
          -- left. by right.
          -- apply elem_of_union in Hi2 as [Hi2|Hi2].
             ++ right. right. exists (c, idx), i. apply elem_of_list_to_set in Hi2.
                split_and!; [left|done|done|]. rewrite Forall_forall in Hx. by apply Hx.
             ++ right. left. eauto.
          -- right. right. exists y, i. split_and!; try done. by right.
  Qed.

  Lemma sublist_sorted {T} (R : T -> T -> Prop) (l1 l2 : list T) :
    l1 `sublist_of` l2 -> StronglySorted R l2 -> StronglySorted R l1.
  Proof.
    induction 1 as [|x l1 l2 H IH|x l1 l2 H IH]; [done| |].
    - intros [Hs Hx]%StronglySorted_inv. constructor; [auto|].
      eapply Forall_impl; [|done]. rewrite Forall_forall in Hx |- *.
      intros y Hy. apply Hx. by apply (elem_of_submseteq _ _ _ Hy), sublist_submseteq.
    - intros [Hs Hx]%StronglySorted_inv. auto.
  Qed.

  Lemma reverse_sorted {T} (R : T -> T -> Prop) (l : list T) :
    StronglySorted R l -> StronglySorted (fun x y => R y x) (reverse l).
  Proof.
    induction 1 as [|x l Hs IH Hx]; [constructor|].
    rewrite reverse_cons. revert IH Hx. rewrite <- (reverse_Permutation l) at 2.
    generalize (reverse l). clear. intros l IH Hx.
    induction IH as [|y l Hs IH Hy]; simpl; [repeat constructor|].
    apply Forall_cons in Hx as [Hxy Hx]. constructor; [by apply IH|].
    apply Forall_app. split; [done|]. by constructor.
  Qed.

  Lemma sublist_nodup {T} (l1 l2 : list T) : l1 `sublist_of` l2 -> NoDup l2 -> NoDup l1.
  Proof.
    induction 1 as [|x l1 l2 H IH|x l1 l2 H IH]; [done| |].
    - intros [Hx Hn]%NoDup_cons. apply NoDup_cons. split; [|auto].
      intros Hx'. apply Hx. by apply (elem_of_submseteq _ _ _ Hx'), sublist_submseteq.
    - intros [_ Hn]%NoDup_cons. auto.
  Qed.

  Lemma join_app {T} (l1 l2 : list (list T)) : mjoin (l1 ++ l2) = mjoin l1 ++ mjoin l2.
  Proof. induction l1 as [|x l1 IH]; simpl; [done|]. by rewrite IH, (assoc_L (++)). Qed.

  Lemma NoDup_fmap_elem {T U} (f : T -> U) l x y :
    NoDup (f <$> l) -> x ∈ l -> y ∈ l -> f x = f y -> x = y.
  Proof.
    intros Hn [i Hi]%elem_of_list_lookup [j Hj]%elem_of_list_lookup E.
    assert (i = j) as ->; [|congruence].
    apply (NoDup_lookup _ i j (f x) Hn); rewrite list_lookup_fmap.
    - by rewrite Hi.
    - by rewrite Hj, E.
  Qed.

  Lemma NoDup_mjoin_elem {T U} (f : T -> list U) l x y i :
    NoDup (mjoin (f <$> l)) -> x ∈ l -> y ∈ l -> i ∈ f x -> i ∈ f y -> x = y.
  Proof.
    induction l as [|z l IH]; csimpl; [by intros _ ?%elem_of_nil|].
    intros (N1&N2&N3)%NoDup_app Hx Hy Hix Hiy.
    assert (forall z', z' ∈ l -> i ∈ f z' -> i ∈ mjoin (f <$> l)) as Hj.
    { intros z' Hz' Hi. apply elem_of_list_join. exists (f z'). split; [done|].
      apply elem_of_list_fmap. eauto. }
    apply elem_of_cons in Hx as [->|Hx]; apply elem_of_cons in Hy as [->|Hy].
    - done.
    - destruct (N2 i Hix). eauto.
    - destruct (N2 i Hiy). eauto.
    - auto.
  Qed.

  Lemma occurs_nodup ws w idx : phantom ws w idx -> NoDup idx.
  Proof.
    intros [[(i&_&->)|(i&x&y&_&_&_&->)]|(_&->&_)].
    - apply NoDup_singleton.
    - apply NoDup_cons. split; [|apply NoDup_singleton].
      intros H%elem_of_list_singleton. lia.
    - apply NoDup_cons. split; [|apply NoDup_singleton].
      intros H%elem_of_list_singleton. lia.
  Qed.

  Context (Hnone : lk WNone = None) (Hsane : strong (nQ A 1 2) = false).

  Lemma phantom_occurs ws c idx :
    wclue (c_word c) = Ok c -> significant c = true ->
    phantom ws (c_word c) idx -> occurs ws (c_word c) idx.
  Proof.
    intros Hc Hs [H|(Hw&_)]; [done|]. exfalso.
    apply word_clue_Ok in Hc as (_&_&Hp&Hd). unfold word_prob in Hp.
    rewrite Hw, Hnone in Hp. unfold significant in Hs. rewrite Hd in Hs.
    injection Hp as Hp. rewrite <- Hp in Hs. unfold strong in Hsane.
    unfold UNKNOWN_WORD_PROB, MINIMUM_PROB_STRENGTH in Hs. congruence.
  Qed.

  Lemma occurs_seen ws acc : pbigram_raw (A:=A) lk ns nh 0 WNone WNone ws (∅, []) = Ok acc ->
    raw_inv (phantom ws) acc /\ (forall w pos, occurs ws w pos -> w ∈ acc.1).
  Proof.
    intros E.
    destruct (pbigram_raw_inv ws [] WNone WNone (∅, []) acc) as (I&_&W&B);
      [done|done|apply raw_inv_nil|done|].
    split; [done|].
    intros w pos [(i&Hi&_)|(i&x&y&Hx&Hy&->&_)].
    - apply (W i); [simpl; lia|done].
    - apply (B i); [simpl; lia|done|done].
  Qed.

  Lemma pclues_bi_spec ws (cs : list (clue A)) : pclues_bi lk ns nh ws = Ok cs ->
    exists used : list cand, cs = fst <$> used /\
    NoDup (c_word <$> cs) /\ length cs <= MAX_DISCRIMINATORS /\
    NoDup (mjoin (snd <$> used)) /\
    (forall x, x ∈ used -> wclue (c_word x.1) = Ok x.1 /\ significant x.1 = true /\
                           occurs ws (c_word x.1) x.2) /\
    (forall c pos0, occurs ws (c_word c) pos0 -> wclue (c_word c) = Ok c ->
       significant c = true -> c_word c ∉ c_word <$> cs ->
       (exists pos x i, occurs ws (c_word c) pos /\ x ∈ used /\ i ∈ pos /\ i ∈ x.2 /\
          clue_leb c x.1 = true) \/
       (length cs = MAX_DISCRIMINATORS /\ forall c', c' ∈ cs -> clue_leb c c' = true)).
  Proof.
    unfold pclues_bi.
    destruct (pbigram_raw lk ns nh 0 WNone WNone ws (∅, [])) as [acc|e] eqn:Er; simpl; [|done].
    destruct (occurs_seen ws acc Er) as ([I1 I2 I3 I4]&Hocc).
    unfold sort_raw_reverse. destruct (any_clash _); simpl; [done|]. intros [= <-].
    set (sorted := reverse (isort raw_leb acc.2)).
    assert (sorted ≡ₚ acc.2) as HP.
    { unfold sorted. by rewrite reverse_Permutation, isort_Permutation. }
    assert (StronglySorted (fun x y => raw_leb y x = true) sorted) as Hs.
    { apply (reverse_sorted (fun x y => raw_leb x y = true)), isort_sorted;
        [apply raw_leb_total|apply raw_leb_trans]. }
    assert (Forall (fun x : cand => NoDup x.2) sorted) as Hn.
    { rewrite HP. apply Forall_forall. intros x Hx. apply I3 in Hx as (_&_&Hx).
      by eapply occurs_nodup. }
    destruct (tile_spec sorted ∅ Hs Hn) as (T1&T2&_&T4). cbv zeta in *.
    set (ch := tile ∅ sorted) in *.
    assert (forall x, x ∈ ch -> x ∈ acc.2) as Hch.
    { intros x Hx. rewrite <- HP. by apply (elem_of_submseteq _ _ _ Hx), sublist_submseteq. }
    assert (StronglySorted (fun x y => clue_leb x y = true) (reverse (fst <$> ch))) as Hasc.
    { pose proof (sublist_sorted _ _ _ T1 Hs) as Hs'.
      apply reverse_sorted in Hs'. rewrite <- fmap_reverse.
      eapply StronglySorted_fmap; [|exact Hs']. done. }
    assert (NoDup (c_word <$> reverse (fst <$> ch))) as Hnd.
    { rewrite (reverse_Permutation (fst <$> ch)). rewrite <- list_fmap_compose.
      rewrite <- HP in I1. eapply sublist_nodup; [|exact I1]. by apply fmap_sublist. }
    rewrite strongest_drop, <- fmap_reverse, fmap_length, reverse_length.
    set (k := length ch - MAX_DISCRIMINATORS).
    exists (drop k (reverse ch)). rewrite fmap_drop. split; [done|].
    assert (fst <$> reverse ch = reverse (fst <$> ch)) as Erev by apply fmap_reverse.
    assert (strongest (reverse (fst <$> ch)) = drop k (reverse (fst <$> ch))) as Estr.
    { by rewrite strongest_drop, reverse_length, fmap_length. }
    rewrite Erev, <- Estr. clear Estr Erev.
    split_and!.
    - by apply strongest_nodup.
    - apply strongest_length.
    - assert (NoDup (mjoin (snd <$> reverse ch))) as T2' by by rewrite (reverse_Permutation ch).
      rewrite <- (take_drop k (reverse ch)), fmap_app, join_app in T2'.
      by apply NoDup_app in T2' as (_&_&T2').
    - intros x Hx.
      assert (x ∈ acc.2) as Hx'.
      { apply Hch. rewrite <- (reverse_Permutation ch).
        rewrite <- (take_drop k (reverse ch)). apply elem_of_app. by right. }
      destruct (I3 x Hx') as (X1&X2&X3). split_and!; [done|done|].
      by apply phantom_occurs.
    - intros c pos0 Hpos Hc Hsig Hnot.
      destruct (I4 (c_word c) (Hocc _ _ Hpos)) as (c'&Hc'&Hin).
      assert (c' = c) as -> by congruence.
      destruct (Hin Hsig) as [idx Hidx].
      assert (occurs ws (c_word c) idx) as Ho.
      { apply phantom_occurs; [done|done|]. apply (I3 _ Hidx). }
      assert (forall y, y ∈ ch -> y ∉ drop k (reverse ch) -> clue_leb c y.1 = true ->
                length (strongest (reverse (fst <$> ch))) = MAX_DISCRIMINATORS /\
                (forall c', c' ∈ strongest (reverse (fst <$> ch)) -> clue_leb c c' = true)) as Hcut.
      { intros y Hy Hyn Hle.
        destruct (strongest_omitted HA (reverse (fst <$> ch)) y.1 Hasc) as [L1 L2].
        - rewrite (reverse_Permutation (fst <$> ch)). apply elem_of_list_fmap. eauto.
        - intros H. apply Hyn.
          rewrite strongest_drop, <- fmap_reverse, <- fmap_drop, fmap_length, reverse_length in H.
          fold k in H.
          apply elem_of_list_fmap in H as (z&Ez&Hz).
          assert (z ∈ ch) as Hzc.
          { rewrite <- (reverse_Permutation ch), <- (take_drop k (reverse ch)).
            apply elem_of_app. by right. }
          assert (y = z) as ->; [|done].
          apply (NoDup_fmap_elem (fun x : cand => c_word x.1) acc.2); auto. congruence.
        - split; [done|]. intros c' Hc1. apply (clue_leb_trans HA _ _ _ Hle). auto. }
      destruct (T4 (c, idx)) as [Hcc|[(i&_&Hi)|(y&i&Hy&Hi1&Hi2&Hle)]].
      + by rewrite HP.
      + right. apply (Hcut (c, idx)); [done| |].
        * intros H. apply Hnot. rewrite strongest_drop, <- fmap_reverse, <- fmap_drop, fmap_length, reverse_length.
          fold k. apply elem_of_list_fmap. exists c. split; [done|].
          apply elem_of_list_fmap. by exists (c, idx).
        * by destruct (clue_leb_total HA c c).
      + set_solver.
      + destruct (decide (i ∈ mjoin (snd <$> drop k (reverse ch)))) as [Hd|Hd].
        * left. apply elem_of_list_join in Hd as (l&Hil&Hl).
          apply elem_of_list_fmap in Hl as (z&->&Hz).
          assert (z ∈ ch) as Hzc.
          { rewrite <- (reverse_Permutation ch), <- (take_drop k (reverse ch)).
            apply elem_of_app. by right. }
          assert (z = y) as ->.
          { by apply (NoDup_mjoin_elem snd ch z y i). }
          exists idx, y, i. done.
        * right. apply (Hcut y); [done| |done].
          intros H. apply Hd. apply elem_of_list_join. exists y.2. split; [done|].
          apply elem_of_list_fmap. eauto.
  Qed.

  Lemma raw_clash_words (raw : list cand) :
    NoDup ((fun x : cand => c_word x.1) <$> raw) -> NoDup (c_word <$> (fst <$> raw)).
  Proof. by rewrite <- list_fmap_compose. Qed.

  Lemma bi_raw_total ws :
    (forall w pos, occurs ws w pos -> exists p, word_prob (A:=A) lk ns nh w = Ok p) ->
    exists acc, pbigram_raw (A:=A) lk ns nh 0 WNone WNone ws (∅, []) = Ok acc.
  Proof.
    intros Hall. apply pbigram_raw_ok. intros w Hw.
    destruct (bi_candidates_spec ws [] WNone WNone w) as [idx H]; [done|done|done|].
    simpl in H. destruct H as [H|(->&_&_)].
    - destruct (Hall _ _ H) as [p Hp]. rewrite (word_clue_total lk ns nh w p Hp). eauto.
    - eexists. apply (word_clue_total lk ns nh WNone). unfold word_prob. by rewrite Hnone.
  Qed.

  Lemma pclues_bi_TypeError ws :
    (forall w pos, occurs ws w pos -> exists p, word_prob (A:=A) lk ns nh w = Ok p) ->
    (pclues_bi (A:=A) lk ns nh ws = Err TypeError <->
     exists w1 w2 p1 p2, (exists pos, occurs ws w1 pos) /\ (exists pos, occurs ws w2 pos) /\
       wkind w1 <> wkind w2 /\
       word_prob (A:=A) lk ns nh w1 = Ok p1 /\ word_prob lk ns nh w2 = Ok p2 /\
       p1 = p2 /\ strong p1 = true) /\
    (forall e, pclues_bi (A:=A) lk ns nh ws = Err e -> e = TypeError).
  Proof.
    intros Hall. unfold pclues_bi.
    destruct (bi_raw_total ws Hall) as [acc Ea]. rewrite Ea. simpl. unfold sort_raw_reverse.
    destruct (occurs_seen ws acc Ea) as ([I1 I2 I3 I4]&Hocc).
    pose proof (any_clash_spec HA _ (raw_clash_words _ I1)) as Hc.
    destruct (any_clash (fst <$> acc.2)); simpl.
    - split; [|by intros e [= <-]]. split; [intros _|done].
      destruct (proj1 Hc eq_refl) as (a&b&Ha&Hb&Hk).
      apply elem_of_list_fmap in Ha as ([a' ia]&->&Ha).
      apply elem_of_list_fmap in Hb as ([b' ib]&->&Hb). simpl in *.
      apply I3 in Ha as (Ca&Sa&Pa). apply I3 in Hb as (Cb&Sb&Pb). simpl in *.
      apply phantom_occurs in Pa; [|done|done]. apply phantom_occurs in Pb; [|done|done].
      apply word_clue_Ok in Ca as (_&_&Qa&Da). apply word_clue_Ok in Cb as (_&_&Qb&Db).
      unfold kind_clash in Hk. rewrite !andb_true_iff, negb_true_iff, N.eqb_neq in Hk.
      destruct Hk as [[Hd Hp] Hk]. rewrite neq_true in Hp by done.
      exists (c_word a'), (c_word b'), (c_prob a'), (c_prob b').
      split_and!; eauto. unfold significant in Sa. by rewrite Da in Sa.
    - split; [|done]. split; [done|].
      intros (w1&w2&p1&p2&[q1 Hw1]&[q2 Hw2]&Hk&P1&P2&<-&Hs). exfalso.
      enough (false = true) by done. apply Hc.
      assert (forall w q, occurs ws w q -> word_prob (A:=A) lk ns nh w = Ok p1 ->
                Clue (strength p1) p1 w (lk w) ∈ (fst <$> acc.2)) as Hin.
      { intros w q Hw Hp. destruct (I4 w (Hocc _ _ Hw)) as (c&Hcw&Hci).
        rewrite (word_clue_total lk ns nh w p1 Hp) in Hcw. injection Hcw as <-.
        destruct (Hci Hs) as [idx Hi]. apply elem_of_list_fmap. eexists. split; [|exact Hi]. done. }
      exists (Clue (strength p1) p1 w1 (lk w1)), (Clue (strength p1) p1 w2 (lk w2)).
      split_and!; [eauto|eauto|].
      unfold kind_clash. simpl. rewrite !neq_refl by done. simpl.
      apply negb_true_iff. by apply N.eqb_neq.
  Qed.

  Lemma pclues_bi_none ws :
    (forall w pos, occurs ws w pos ->
       exists p, word_prob (A:=A) lk ns nh w = Ok p /\ strong p = false) ->
    pclues_bi (A:=A) lk ns nh ws = Ok [].
  Proof.
    intros Hall. destruct (bi_raw_total ws) as [acc Ea].
    { intros w pos Hw. destruct (Hall _ _ Hw) as (p&?&_). eauto. }
    destruct (occurs_seen ws acc Ea) as ([I1 I2 I3 I4]&Hocc).
    unfold pclues_bi. rewrite Ea. simpl.
    assert (acc.2 = []) as ->; [|done].
    destruct (acc.2) as [|x raw]; [done|]. exfalso.
    destruct (I3 x) as (Cx&Sx&Px); [left|].
    apply phantom_occurs in Px; [|done|done].
    destruct (Hall _ _ Px) as (p&Hp&Hs).
    apply word_clue_Ok in Cx as (_&_&Qx&Dx).
    unfold significant in Sx. rewrite Dx in Sx. assert (p = c_prob x.1) as -> by congruence.
    unfold strong in Hs. unfold MINIMUM_PROB_STRENGTH in Sx. congruence.
  Qed.

  Lemma pclues_uni_none it ws : set_order_ok it ->
    (forall w, w ∈ ws -> exists p, word_prob (A:=A) lk ns nh w = Ok p /\ strong p = false) ->
    pclues_uni (A:=A) it lk ns nh ws = Ok [].
  Proof.
    intros Hit Hall. unfold pclues_uni.
    destruct (rmap_all (word_clue (A:=A) lk ns nh) (it ws)) as [tups Et].
    { intros w Hw. apply (proj2 (Hit ws)) in Hw. destruct (Hall w Hw) as (p&Hp&_).
      rewrite (word_clue_total lk ns nh w p Hp). eauto. }
    rewrite Et. simpl.
    assert (List.filter significant tups = []) as ->; [|done].
    destruct (List.filter significant tups) as [|c l] eqn:E; [done|]. exfalso.
    assert (c ∈ List.filter significant tups) as Hc by (rewrite E; left).
    apply elem_of_Lfilter in Hc as [Hc Sc]. apply (rmap_clue_elem _ _ _ _ _ _ Et) in Hc as [Hc Cc].
    apply (proj2 (Hit ws)) in Hc. destruct (Hall _ Hc) as (p&Hp&Hs).
    apply word_clue_Ok in Cc as (_&_&Qx&Dx).
    unfold significant in Sc. rewrite Dx in Sc. assert (p = c_prob c) as -> by congruence.
    unfold strong in Hs. unfold MINIMUM_PROB_STRENGTH in Sc. congruence.
  Qed.
End bigrams.

(** ** Combining never raises TypeError *)
Lemma score_probs_err {A : num} ps e : score_probs A ps = Err e -> e = ValueError.
Proof.
  unfold score_probs, pylog, chi2Q.
  destruct (nlt A (nZ A 0) _); simpl; [|congruence].
  destruct (nlt A (nZ A 0) _); simpl; [|congruence].
  destruct (0 <? Z.of_nat (length ps))%Z; simpl; [|done].
  destruct (negb _); simpl; [congruence|done].
Qed.

Lemma score_probs_nil {A : num} : nlt A (nZ A 0) (nZ A 1) = true ->
  exists S H, score_probs A [] = Ok (nQ A 1 2, S, H).
Proof. intros H. unfold score_probs, pylog. simpl. rewrite H. simpl. eauto. Qed.

(** ** The API level: reachable in-memory classifiers *)
Section api.
  Context {A : num} (HA : total_num A) (it : set_order) (Hit : set_order_ok it).
  Notation mobj := (obj A mstore).

  Lemma spam_probability_word (o : mobj) w :
    word_prob (mlook (o_store o)) (o_nspam o) (o_nham o) w = spam_probability o w.
  Proof. done. Qed.

  Lemma score_evidence_inv s (o o' : mobj) p ev : mgood o ->
    spamprob_evidence mem_backend it s o = (o', Ok (p, ev)) ->
    exists cs S H, pclues it (mlook (o_store o)) (o_nspam o) (o_nham o) (o_bigrams o) (elems s) = Ok cs
      /\ score_probs A (c_prob <$> cs) = Ok (p, S, H) /\ ev = evidence_of A cs S H.
  Proof.
    intros Hg E. destruct (mem_score it s o Hg) as (o1&E1&_&_). rewrite E1 in E.
    injection E as _ E. unfold pscore_evidence in E.
    destruct (pclues _ _ _ _ _ _) as [cs|e]; simpl in E; [|done].
    destruct (score_probs A (c_prob <$> cs)) as [[[p' S] H]|e] eqn:Es; simpl in E; [|done].
    injection E as <- <-. exists cs, S, H. done.
  Qed.

  Definition ev_pairs (cs : list (clue A)) : list (pyword * F A) :=
    (fun c => (c_word c, c_prob c)) <$> cs.

  Lemma evidence_tail cs S H : exists rest,
    evidence_of A cs S H = (WBytes (str "*H*"), H) :: (WBytes (str "*S*"), S) :: rest /\
    rest ≡ₚ ev_pairs cs /\
    StronglySorted (fun a b => nle A a.2 b.2 = true) rest.
  Proof.
    exists (isort (ev_leb A) (ev_pairs cs)). split; [done|]. split; [apply isort_Permutation|].
    apply (isort_sorted (ev_leb A)).
    - intros x y. apply (nle_total HA).
    - intros x y z. apply (nle_trans HA).
  Qed.

  (** C11 *)
  Lemma clues_uni h s p ev o' :
    let o := fst (run mem_backend it h (c_new false ∅ : mobj)) in
    spamprob_evidence mem_backend it s o = (o', Ok (p, ev)) ->
    exists evH evS used, ev = evH :: evS :: used /\
      NoDup (used.*1) /\ length used <= 150 /\
      (forall w q, (w, q) ∈ used ->
         w ∈ elems s /\ spam_probability o w = Ok q /\ strong q = true) /\
      (forall w q, w ∈ elems s -> w ∉ used.*1 -> spam_probability o w = Ok q ->
         strong q = false \/
         (length used = 150 /\ forall w' q', (w', q') ∈ used -> nle A (strength q) (strength q') = true)).
  Proof.
    intros o E. destruct (score_evidence_inv s o o' p ev) as (cs&S&H&Ec&_&->);
      [apply (reachable_good it Hit)|done|].
    assert (o_bigrams o = Some false) as Hbg by (unfold o; by rewrite run_bigrams).
    rewrite Hbg in Ec. simpl in Ec.
    destruct (pclues_uni_spec HA _ _ _ it (elems s) cs Hit Ec) as (C1&C2&C3&C4&C5).
    destruct (evidence_tail cs S H) as (rest&->&Hp&_).
    assert (rest.*1 ≡ₚ c_word <$> cs) as Hw.
    { rewrite Hp. unfold ev_pairs. by rewrite <- list_fmap_compose. }
    assert (length rest = length cs) as Hlen.
    { rewrite Hp. unfold ev_pairs. by rewrite fmap_length. }
    assert (forall w q, (w, q) ∈ rest <-> exists c, c ∈ cs /\ w = c_word c /\ q = c_prob c) as Hr.
    { intros w q. rewrite Hp. unfold ev_pairs. rewrite elem_of_list_fmap. split.
      - intros (c&E'&Hc). simplify_eq. eauto.
      - intros (c&Hc&->&->). eauto. }
    exists (WBytes (str "*H*"), H), (WBytes (str "*S*"), S), rest. split; [done|].
    split_and!.
    - by rewrite Hw.
    - by rewrite Hlen.
    - intros w q (c&Hc&->&->)%Hr. destruct (C4 c Hc) as (D1&D2&D3).
      apply word_clue_Ok in D2 as (_&_&D4&D5). split_and!; [done|done|].
      unfold significant in D3. by rewrite D5 in D3.
    - intros w q Hwin Hnot Hq. destruct (strong q) eqn:Hs; [right|by left].
      pose proof (word_clue_total (mlook (o_store o)) _ _ w q Hq) as Hc.
      set (c := Clue (strength q) q w _) in Hc.
      destruct (C5 c) as [L1 L2]; [done|done|by rewrite <- Hw|done|].
      split; [by rewrite Hlen|].
      intros w' q' (c'&Hc'&->&->)%Hr.
      destruct (C4 c' Hc') as (_&D2&_). apply word_clue_Ok in D2 as (_&_&_&<-).
      apply (cle_dist HA c c'). by apply L2.
  Qed.

  (** C20 *)
  Lemma evidence_spec bg h s p ev o' :
    let o := fst (run mem_backend it h (c_new bg ∅ : mobj)) in
    spamprob_evidence mem_backend it s o = (o', Ok (p, ev)) ->
    exists cs o2 H S rest, getclues mem_backend it s o = (o2, Ok cs) /\
      ev = (WBytes (str "*H*"), H) :: (WBytes (str "*S*"), S) :: rest /\
      rest ≡ₚ ((fun c => (c_word c, c_prob c)) <$> cs) /\
      StronglySorted (fun a b => nle A a.2 b.2 = true) rest.
  Proof.
    intros o E. assert (mgood o) as Hg by apply (reachable_good it Hit).
    destruct (score_evidence_inv s o o' p ev Hg E) as (cs&S&H&Ec&_&->).
    destruct (mem_clues it s o Hg) as (o2&E2&_). rewrite Ec in E2.
    destruct (evidence_tail cs S H) as (rest&->&Hp&Hs).
    exists cs, o2, H, S, rest. done.
  Qed.

  Lemma evidence_same_score bg h s :
    let o := fst (run mem_backend it h (c_new bg ∅ : mobj)) in
    snd (spamprob mem_backend it s o) =
    match snd (spamprob_evidence mem_backend it s o) with
    | Ok (p, _) => Ok p
    | Err e => Err e
    end.
  Proof.
    intros o. assert (mgood o) as Hg by apply (reachable_good it Hit).
    destruct (mem_score it s o Hg) as (o1&->&_&_).
    destruct (mem_score_plain it s o Hg) as (o2&->&_&_). simpl.
    unfold pscore, pscore_evidence. destruct (pclues _ _ _ _ _ _) as [cs|e]; simpl; [|done].
    by destruct (score_probs A _) as [[[p S] H]|e].
  Qed.

  (** C13 *)
  Lemma clues_bi h s p ev o' :
    let o := fst (run mem_backend it h (c_new true ∅ : mobj)) in
    o_store o !! WNone = None -> strong (nQ A 1 2) = false ->
    spamprob_evidence mem_backend it s o = (o', Ok (p, ev)) ->
    exists evH evS rest (used : list ((pyword * F A) * list Z)),
      ev = evH :: evS :: rest /\ rest ≡ₚ used.*1 /\
      NoDup (used.*1.*1) /\ length used <= 150 /\
      NoDup (mjoin (used.*2)) /\
      (forall w q pos, ((w, q), pos) ∈ used ->
         occurs (elems s) w pos /\ spam_probability o w = Ok q /\ strong q = true) /\
      (forall w q pos0, occurs (elems s) w pos0 -> spam_probability o w = Ok q ->
         strong q = true -> w ∉ used.*1.*1 ->
         (exists pos w' q' pos' i, occurs (elems s) w pos /\ ((w', q'), pos') ∈ used /\
            i ∈ pos /\ i ∈ pos' /\ nle A (strength q) (strength q') = true) \/
         (length used = 150 /\
          forall w' q' pos', ((w', q'), pos') ∈ used -> nle A (strength q) (strength q') = true)).
  Proof.
    intros o Hnone Hsane E. destruct (score_evidence_inv s o o' p ev) as (cs&S&H&Ec&_&->);
      [apply (reachable_good it Hit)|done|].
    assert (o_bigrams o = Some true) as Hbg by (unfold o; by rewrite run_bigrams).
    rewrite Hbg in Ec. simpl in Ec.
    destruct (pclues_bi_spec HA (mlook (o_store o)) _ _ Hnone Hsane (elems s) cs Ec)
      as (u&Eu&C1&C2&C3&C4&C5).
    destruct (evidence_tail cs S H) as (rest&->&Hp&_).
    set (f := fun x : clue A * list Z => ((c_word x.1, c_prob x.1), x.2)).
    set (used := f <$> u).
    assert (used.*1 = ev_pairs cs) as U1.
    { unfold used, ev_pairs. rewrite Eu, <- !list_fmap_compose. done. }
    assert (used.*1.*1 = c_word <$> cs) as U2.
    { rewrite U1. unfold ev_pairs. by rewrite <- list_fmap_compose. }
    assert (used.*2 = u.*2) as U3.
    { unfold used. by rewrite <- list_fmap_compose. }
    assert (length used = length cs) as U4.
    { unfold used. by rewrite Eu, !fmap_length. }
    assert (forall w q pos, ((w, q), pos) ∈ used <->
              exists c, (c, pos) ∈ u /\ w = c_word c /\ q = c_prob c) as Hr.
    { intros w q pos. unfold used. rewrite elem_of_list_fmap. split.
      - intros ([c i]&E'&Hc). unfold f in E'. simplify_eq. eauto.
      - intros (c&Hc&->&->). exists (c, pos). done. }
    exists (WBytes (str "*H*"), H), (WBytes (str "*S*"), S), rest, used. split; [done|].
    rewrite U2, U3. rewrite U1, U4. split_and!; [done|done|done|done| |].
    - intros w q pos (c&Hc&->&->)%Hr. destruct (C4 _ Hc) as (D2&D3&D1). simpl in *.
      apply word_clue_Ok in D2 as (_&_&D4&D5). split_and!; [done|done|].
      unfold significant in D3. by rewrite D5 in D3.
    - intros w q pos0 Hpos Hq Hs Hnot.
      pose proof (word_clue_total (mlook (o_store o)) _ _ w q Hq) as Hc.
      set (c := Clue (strength q) q w _) in Hc.
      assert (forall c' i', (c', i') ∈ u -> clue_leb c c' = true ->
                nle A (strength q) (strength (c_prob c')) = true) as Hle.
      { intros c' i' Hc' Hl. destruct (C4 _ Hc') as (D2&_&_). simpl in D2.
        apply word_clue_Ok in D2 as (_&_&_&<-). apply (cle_dist HA c c' Hl). }
      destruct (C5 c pos0) as [(pos&[c' i']&i&O1&O2&O3&O4&O5)|[L1 L2]]; [done|done|done|done| |].
      + left. exists pos, (c_word c'), (c_prob c'), i', i. split_and!; try done.
        * apply Hr. eauto.
        * by eapply Hle.
      + right. split; [done|]. intros w' q' pos' (c'&Hc'&->&->)%Hr.
        eapply Hle; [done|]. apply L2. rewrite Eu. apply elem_of_list_fmap. by exists (c', pos').
  Qed.

  (** C15 *)
  Lemma no_clues bg h s :
    let o := fst (run mem_backend it h (c_new bg ∅ : mobj)) in
    sane A -> o_store o !! WNone = None ->
    (forall w, candidate bg (elems s) w ->
       exists q, spam_probability o w = Ok q /\ strong q = false) ->
    exists o' H S, spamprob_evidence mem_backend it s o =
      (o', Ok (nQ A 1 2, [(WBytes (str "*H*"), H); (WBytes (str "*S*"), S)])).
  Proof.
    intros o [Hs0 Hs1] Hnone Hall. assert (mgood o) as Hg by apply (reachable_good it Hit).
    assert (o_bigrams o = Some bg) as Hbg by (unfold o; by rewrite run_bigrams).
    destruct (mem_score it s o Hg) as (o1&->&_&_). exists o1.
    unfold pscore_evidence. rewrite Hbg.
    assert (pclues it (mlook (o_store o)) (o_nspam o) (o_nham o) (Some bg) (elems s) = Ok []) as ->.
    { destruct bg; simpl.
      - apply pclues_bi_none; try done. intros w pos Hw. apply Hall. simpl. eauto.
      - by apply pclues_uni_none. }
    simpl. destruct (score_probs_nil Hs1) as (S&H&->). simpl. eauto.
  Qed.

  (** C22 *)
  Lemma type_error bg h s :
    let o := fst (run mem_backend it h (c_new bg ∅ : mobj)) in
    strong (nQ A 1 2) = false -> o_store o !! WNone = None ->
    (forall w, candidate bg (elems s) w -> exists q, spam_probability o w = Ok q) ->
    snd (spamprob_evidence mem_backend it s o) = Err TypeError <->
    exists w1 w2 q, candidate bg (elems s) w1 /\ candidate bg (elems s) w2 /\
      wkind w1 <> wkind w2 /\ spam_probability o w1 = Ok q /\ spam_probability o w2 = Ok q /\
      strong q = true.
  Proof.
    intros o Hs0 Hnone Hall. assert (mgood o) as Hg by apply (reachable_good it Hit).
    assert (o_bigrams o = Some bg) as Hbg by (unfold o; by rewrite run_bigrams).
    destruct (mem_score it s o Hg) as (o1&->&_&_). simpl.
    unfold pscore_evidence. rewrite Hbg.
    assert (pclues (A:=A) it (mlook (o_store o)) (o_nspam o) (o_nham o) (Some bg) (elems s) = Err TypeError <->
      exists w1 w2 q, candidate bg (elems s) w1 /\ candidate bg (elems s) w2 /\
      wkind w1 <> wkind w2 /\ spam_probability o w1 = Ok q /\ spam_probability o w2 = Ok q /\
      strong q = true) as Hp.
    { destruct bg; simpl.
      - rewrite (proj1 (pclues_bi_TypeError HA (mlook (o_store o)) (o_nspam o) (o_nham o) Hnone Hs0
                   (elems s) (fun w pos Hw => Hall w (ex_intro _ pos Hw)))).
        split; [intros (w1&w2&p1&p2&?&?&?&?&?&->&?)|intros (w1&w2&q&?&?&?&?&?&?)].
        + exists w1, w2, p2. done.
        + exists w1, w2, q, q. done.
      - rewrite (proj1 (pclues_uni_TypeError HA (mlook (o_store o)) (o_nspam o) (o_nham o) it
                   (elems s) Hit Hall)).
        split; [intros (w1&w2&p1&p2&?&?&?&?&?&->&?)|intros (w1&w2&q&?&?&?&?&?&?)].
        + exists w1, w2, p2. done.
        + exists w1, w2, q, q. done. }
    rewrite <- Hp. clear Hp Hall.
    destruct (pclues _ _ _ _ _ _) as [cs|e]; simpl; [|split; congruence].
    split; [|done]. destruct (score_probs A _) as [[[p S] H]|e] eqn:Es; simpl; [done|].
    apply score_probs_err in Es as ->. done.
  Qed.
End api.

(** C12 *)
Lemma score_same {A : num} (HA : total_num A) it0 it1 it2 h s1 s2 :
  set_order_ok it0 -> set_order_ok it1 -> set_order_ok it2 ->
  (forall w, w ∈ elems s1 <-> w ∈ elems s2) ->
  let o := fst (run mem_backend it0 h (c_new false ∅ : obj A mstore)) in
  same_result (snd (spamprob_evidence mem_backend it1 s1 o))
              (snd (spamprob_evidence mem_backend it2 s2 o)).
Proof.
  intros H0 H1 H2 Hws o. assert (mgood o) as Hg by apply (reachable_good it0 H0).
  assert (o_bigrams o = Some false) as Hbg by (unfold o; by rewrite run_bigrams).
  destruct (mem_score it1 s1 o Hg) as (o1&->&_&_).
  destruct (mem_score it2 s2 o Hg) as (o2&->&_&_). simpl.
  unfold pscore_evidence. rewrite Hbg. simpl.
  pose proof (pclues_uni_same HA (mlook (o_store o)) (o_nspam o) (o_nham o) it1 it2
                (elems s1) (elems s2) H1 H2 Hws) as Hp.
  destruct (pclues_uni it1 _ _ _ _) as [c1|e1], (pclues_uni it2 _ _ _ _) as [c2|e2]; simpl in *; try done.
  subst c2. by destruct (score_probs A _) as [[[p S] H]|e].
Qed.
