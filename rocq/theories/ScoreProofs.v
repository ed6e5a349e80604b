(** * Scoring as a pure function of records and totals (C07 and groundwork) *)
From Coq Require Import Lia.
From Verif Require Import Py NumModel ClassifierModel TrainSpec TrainProofs.

Fixpoint rmap {A B} (f : A -> res B) (l : list A) : res (list B) :=
  match l with
  | [] => Ok []
  | x :: l => rbind (f x) (fun y => rbind (rmap f l) (fun ys => Ok (y :: ys)))
  end.

Section pure.
  Context {A : num} (it : set_order).
  Context (lk : pyword -> option winfo) (ns nh : Z).

  Definition word_prob (w : pyword) : res (F A) :=
    match lk w with
    | None => Ok UNKNOWN_WORD_PROB
    | Some r => prob_formula ns nh r
    end.

  Definition word_clue (w : pyword) : res (clue A) :=
    rbind (word_prob w) (fun p =>
      Ok (Clue (nabs A (nsub A p (nQ A 1 2))) p w (lk w))).

  Definition pclues_uni (ws : list pyword) : res (list (clue A)) :=
    rbind (rmap word_clue (it ws)) (fun tups =>
      rbind (sort_clues (List.filter significant tups)) (fun l => Ok (strongest l))).

  Definition pconsider (w : pyword) (idx : list Z)
      (acc : gset pyword * list (clue A * list Z)) : res (gset pyword * list (clue A * list Z)) :=
    let '(seen, raw) := acc in
    if decide (w ∈ seen) then Ok (seen, raw)
    else rbind (word_clue w) (fun tup =>
      Ok ({[w]} ∪ seen, if significant tup then raw ++ [(tup, idx)] else raw)).

  Fixpoint pbigram_raw (i : Z) (last pair : pyword) (l : list pyword)
      (acc : gset pyword * list (clue A * list Z)) : res (gset pyword * list (clue A * list Z)) :=
    match l with
    | [] => Ok acc
    | token :: l =>
        let pair := if (i =? 0)%Z then pair else bigram last token in
        rbind (pconsider token [i] acc) (fun acc =>
          rbind (pconsider pair [(i - 1)%Z; i] acc) (fun acc =>
            pbigram_raw (i + 1) token pair l acc))
    end.

  Definition pclues_bi (ws : list pyword) : res (list (clue A)) :=
    rbind (pbigram_raw 0 WNone WNone ws (∅, [])) (fun acc =>
      rbind (sort_raw_reverse acc.2)
            (fun raw => Ok (strongest (reverse (fst <$> tile ∅ raw))))).

  Definition pclues (bg : option bool) (ws : list pyword) : res (list (clue A)) :=
    match bg with
    | None => Err AttributeError
    | Some true => pclues_bi ws
    | Some false => pclues_uni ws
    end.

  Definition pscore_evidence (bg : option bool) (ws : list pyword) : res (F A * list (pyword * F A)) :=
    rbind (pclues bg ws) (fun cs =>
      rbind (score_probs A (c_prob <$> cs)) (fun '(p, s, h) => Ok (p, evidence_of A cs s h))).

  Definition pscore (bg : option bool) (ws : list pyword) : res (F A) :=
    rbind (pclues bg ws) (fun cs =>
      rbind (score_probs A (c_prob <$> cs)) (fun '(p, _, _) => Ok p)).

  (** all words a bigram score looks up *)
  Fixpoint bi_candidates (i : Z) (last pair : pyword) (l : list pyword) : list pyword :=
    match l with
    | [] => []
    | token :: l =>
        let pair := if (i =? 0)%Z then pair else bigram last token in
        token :: pair :: bi_candidates (i + 1) token pair l
    end.
End pure.

Section generic.
  Context {A : num} {St : Type} (bk : backend St) (it : set_order).
  Context (Inv : St -> Prop) (look : St -> pyword -> option winfo) (adm : pyword -> Prop).
  Context (Hget : forall st w, Inv st -> adm w -> exists st',
             bk_get bk w st = (st', Ok (look st w)) /\ Inv st' /\
             forall w', look st' w' = look st w').
  Notation obj := (obj A St).

  Definition cache_ok (o : obj) : Prop :=
    forall sc hc row p, o_cache o !! sc = Some row -> row !! hc = Some p ->
      prob_formula (o_nspam o) (o_nham o) (WI sc hc) = Ok p.

  (** [o'] is like [o] as far as a caller can see *)
  Record like (o o' : obj) : Prop := {
    like_inv : Inv (o_store o');
    like_cache : cache_ok o';
    like_bg : o_bigrams o' = o_bigrams o;
    like_ns : o_nspam o' = o_nspam o;
    like_nh : o_nham o' = o_nham o;
    like_look : forall w, look (o_store o') w = look (o_store o) w
  }.

  Definition good (o : obj) : Prop := Inv (o_store o) /\ cache_ok o.

  Lemma like_refl o : good o -> like o o.
  Proof. intros [H1 H2]. by constructor. Qed.

  Lemma like_good o o' : like o o' -> good o'.
  Proof. intros []. by split. Qed.

  Lemma like_trans o1 o2 o3 : like o1 o2 -> like o2 o3 -> like o1 o3.
  Proof.
    intros [] []. constructor; try congruence.
    all: try (intros; etrans; eauto). all: eauto.
  Qed.

  (** [m] computes [f] (a function of the abstract object) and keeps it *)
  Definition computes {B} (m : M obj B) (o : obj) (r : res B) : Prop :=
    exists o', m o = (o', r) /\ like o o'.

  Lemma probability_computes r o : good o ->
    computes (probability r) o (prob_formula (o_nspam o) (o_nham o) r).
  Proof.
    intros [Hi Hc]. unfold computes, probability.
    destruct (o_cache o !! spamcount r ≫= (fun row => row !! hamcount r)) as [p|] eqn:E.
    - exists o. split; [|by apply like_refl].
      destruct (o_cache o !! spamcount r) as [row|] eqn:Er; [|done]. simpl in E.
      specialize (Hc _ _ _ _ Er E). destruct r; simpl in *. by rewrite Hc.
    - destruct (prob_formula (o_nspam o) (o_nham o) r) as [p|e] eqn:Ef.
      2:{ exists o. split; [done|by apply like_refl]. }
      eexists. split; [done|]. constructor; try done. simpl.
      unfold cache_ok; simpl. intros sc hc row p'.
      destruct (decide (sc = spamcount r)) as [->|Hne].
      + rewrite lookup_insert. intros [= <-].
        destruct (decide (hc = hamcount r)) as [->|Hne2].
        * destruct (o_cache o !! spamcount r) as [row|]; rewrite ?lookup_insert, ?lookup_singleton;
            intros [= <-]; destruct r; exact Ef.
        * destruct (o_cache o !! spamcount r) as [row|] eqn:Er.
          -- rewrite lookup_insert_ne by done. eauto.
          -- by rewrite lookup_singleton_ne by done.
      + rewrite lookup_insert_ne by done. eauto.
  Qed.

  Lemma word_clue_computes w o : good o -> adm w ->
    computes (worddistanceget bk w) o (word_clue (look (o_store o)) (o_nspam o) (o_nham o) w).
  Proof.
    intros Hg Ha. unfold computes, worddistanceget, mbind, on_store.
    destruct (Hget (o_store o) w (proj1 Hg) Ha) as (st'&->&Hi'&Hl').
    assert (like o (with_store o st')) as Hlike.
    { constructor; try done. destruct Hg as [_ Hc]. exact Hc. }
    unfold word_clue, word_prob.
    destruct (look (o_store o) w) as [r|] eqn:Hr.
    - destruct (probability_computes r (with_store o st') (like_good _ _ Hlike)) as (o2&->&Hl2).
      simpl. exists o2. split; [|by eapply like_trans].
      destruct (prob_formula (o_nspam o) (o_nham o) r); done.
    - simpl. exists (with_store o st'). done.
  Qed.

  Lemma prob_ext (lk1 lk2 : pyword -> option winfo) ns nh w :
    lk1 w = lk2 w -> word_clue (A:=A) lk1 ns nh w = word_clue lk2 ns nh w.
  Proof. intros E. unfold word_clue, word_prob. by rewrite E. Qed.

  Lemma mmap_computes l : forall o, good o -> Forall adm l ->
    computes (mmap l (worddistanceget bk)) o
             (rmap (word_clue (look (o_store o)) (o_nspam o) (o_nham o)) l).
  Proof.
    induction l as [|w l IH]; intros o Hg Hl; simpl.
    - exists o. split; [done|by apply like_refl].
    - apply Forall_cons in Hl as [Hw Hl].
      destruct (word_clue_computes w o Hg Hw) as (o1&E1&L1). unfold mbind.
      unfold computes. rewrite E1.
      destruct (word_clue _ _ _ w) as [c|e]; simpl.
      2:{ by exists o1. }
      destruct (IH o1 (like_good _ _ L1) Hl) as (o2&E2&L2). rewrite E2.
      rewrite (like_ns _ _ L1), (like_nh _ _ L1).
      assert (rmap (word_clue (look (o_store o1)) (o_nspam o) (o_nham o)) l =
              rmap (word_clue (A:=A) (look (o_store o)) (o_nspam o) (o_nham o)) l) as ->.
      { clear -L1. induction l as [|x l IHl]; simpl; [done|].
        rewrite (prob_ext (look (o_store o1)) (look (o_store o))) by apply L1.
        by rewrite IHl. }
      clear E2. destruct (rmap _ l) as [ys|e]; simpl; exists o2; (split; [done|by eapply like_trans]).
  Qed.

  Lemma consider_computes w idx acc o : good o -> adm w ->
    computes (consider bk w idx acc) o
             (pconsider (look (o_store o)) (o_nspam o) (o_nham o) w idx acc).
  Proof.
    intros Hg Ha. destruct acc as [seen raw]. unfold consider, pconsider.
    destruct (decide (w ∈ seen)).
    - exists o. split; [done|by apply like_refl].
    - destruct (word_clue_computes w o Hg Ha) as (o1&E1&L1). unfold computes, mbind.
      rewrite E1. destruct (word_clue _ _ _ w) as [c|e]; simpl; by exists o1.
  Qed.

  Lemma pconsider_ext (lk1 lk2 : pyword -> option winfo) ns nh w idx acc :
    (forall w, lk1 w = lk2 w) ->
    pconsider (A:=A) lk1 ns nh w idx acc = pconsider lk2 ns nh w idx acc.
  Proof.
    intros E. unfold pconsider. destruct acc. destruct (decide _); [done|].
    by rewrite (prob_ext lk1 lk2).
  Qed.

  Lemma pbigram_raw_ext (lk1 lk2 : pyword -> option winfo) ns nh l :
    (forall w, lk1 w = lk2 w) -> forall i last pair acc,
    pbigram_raw (A:=A) lk1 ns nh i last pair l acc = pbigram_raw lk2 ns nh i last pair l acc.
  Proof.
    intros E. induction l as [|x l IH]; intros i last pair acc; simpl; [done|].
    rewrite (pconsider_ext lk1 lk2) by done.
    destruct (pconsider lk2 ns nh x [i] acc) as [acc1|]; simpl; [|done].
    rewrite (pconsider_ext lk1 lk2) by done.
    destruct (pconsider lk2 ns nh _ _ acc1) as [acc2|]; simpl; [|done]. apply IH.
  Qed.

  Lemma bigram_raw_computes l : forall i last pair acc o, good o ->
    Forall adm (bi_candidates i last pair l) ->
    computes (bigram_raw bk i last pair l acc) o
             (pbigram_raw (look (o_store o)) (o_nspam o) (o_nham o) i last pair l acc).
  Proof.
    induction l as [|x l IH]; intros i last pair acc o Hg Hl; simpl in *.
    - exists o. split; [done|by apply like_refl].
    - apply Forall_cons in Hl as [Hx Hl]. apply Forall_cons in Hl as [Hp Hl].
      destruct (consider_computes x [i] acc o Hg Hx) as (o1&E1&L1).
      unfold computes. unfold mbind at 1. rewrite E1.
      destruct (pconsider _ _ _ x [i] acc) as [acc1|e]; simpl; [|by exists o1].
      destruct (consider_computes (if (i =? 0)%Z then pair else bigram last x)
                  [(i-1)%Z; i] acc1 o1 (like_good _ _ L1) Hp) as (o2&E2&L2).
      unfold mbind at 1. rewrite E2. clear E2.
      rewrite (pconsider_ext (look (o_store o1)) (look (o_store o))) by apply L1.
      rewrite (like_ns _ _ L1), (like_nh _ _ L1).
      destruct (pconsider _ _ _ _ [(i-1)%Z; i] acc1) as [acc2|e]; simpl.
      2:{ exists o2. split; [done|by eapply like_trans]. }
      assert (like o o2) as L by by eapply like_trans.
      destruct (IH (i+1)%Z x (if (i =? 0)%Z then pair else bigram last x) acc2 o2 (like_good _ _ L) Hl)
        as (o3&E3&L3).
      exists o3. rewrite E3. split; [|by eapply like_trans].
      rewrite (like_ns _ _ L), (like_nh _ _ L).
      by rewrite (pbigram_raw_ext (look (o_store o2)) (look (o_store o))) by apply L.
  Qed.

  Definition adm_stream (bg : option bool) (ws : list pyword) : Prop :=
    match bg with
    | None => True
    | Some true => Forall adm (bi_candidates 0 WNone WNone ws)
    | Some false => Forall adm (it ws)
    end.

  Lemma getclues_computes s o : good o -> adm_stream (o_bigrams o) (elems s) ->
    computes (getclues bk it s) o
             (pclues it (look (o_store o)) (o_nspam o) (o_nham o) (o_bigrams o) (elems s)).
  Proof.
    intros Hg Ha. unfold computes, getclues.
    destruct (o_bigrams o) as [[]|]; simpl in *.
    - destruct (bigram_raw_computes (elems s) 0 WNone WNone (∅, []) o Hg Ha) as (o1&E1&L1).
      exists o1. split; [|done]. unfold getclues_bi, mbind, pclues_bi. rewrite E1.
      by destruct (pbigram_raw _ _ _ _ _ _ _ _).
    - destruct (mmap_computes (it (elems s)) o Hg Ha) as (o1&E1&L1).
      exists o1. split; [|done]. unfold getclues_uni, mbind, pclues_uni. rewrite E1.
      by destruct (rmap _ _).
    - exists o. split; [done|by apply like_refl].
  Qed.

  Lemma spamprob_evidence_computes s o : good o -> adm_stream (o_bigrams o) (elems s) ->
    computes (spamprob_evidence bk it s) o
             (pscore_evidence it (look (o_store o)) (o_nspam o) (o_nham o) (o_bigrams o) (elems s)).
  Proof.
    intros Hg Ha. destruct (getclues_computes s o Hg Ha) as (o1&E1&L1).
    exists o1. split; [|done]. unfold spamprob_evidence, mbind, pscore_evidence.
    rewrite E1. by destruct (pclues _ _ _ _ _ _).
  Qed.

  Lemma spamprob_computes s o : good o -> adm_stream (o_bigrams o) (elems s) ->
    computes (spamprob bk it s) o
             (pscore it (look (o_store o)) (o_nspam o) (o_nham o) (o_bigrams o) (elems s)).
  Proof.
    intros Hg Ha. destruct (getclues_computes s o Hg Ha) as (o1&E1&L1).
    exists o1. split; [|done]. unfold spamprob, mbind, pscore.
    rewrite E1. by destruct (pclues _ _ _ _ _ _).
  Qed.
End generic.

Lemma rmap_ext {A B} (f g : A -> res B) l : (forall x, f x = g x) -> rmap f l = rmap g l.
Proof. intros E. induction l as [|x l IH]; simpl; [done|]. by rewrite E, IH. Qed.

Lemma pclues_ext {A : num} it (lk1 lk2 : pyword -> option winfo) ns nh bg ws :
  (forall w, lk1 w = lk2 w) -> pclues (A:=A) it lk1 ns nh bg ws = pclues it lk2 ns nh bg ws.
Proof.
  intros E. destruct bg as [[]|]; simpl; [| |done].
  - unfold pclues_bi. by rewrite (pbigram_raw_ext lk1 lk2).
  - unfold pclues_uni. rewrite (rmap_ext (word_clue lk1 ns nh) (word_clue lk2 ns nh)); [done|].
    intros w. by apply prob_ext.
Qed.

(** ** The in-memory classifier *)
Section mem.
  Context {A : num} (it : set_order) (Hit : set_order_ok it).
  Notation mobj := (obj A mstore).

  Definition mlook (m : mstore) (w : pyword) : option winfo := m !! w.
  Definition mgood (o : mobj) : Prop := cache_ok o.

  Lemma mem_get : forall st w, True -> True -> exists st',
    bk_get mem_backend w st = (st', Ok (mlook st w)) /\ True /\
    forall w', mlook st' w' = mlook st w'.
  Proof. intros st w _ _. by exists st. Qed.

  Lemma mem_adm bg ws : adm_stream it (fun _ => True) bg ws.
  Proof. destruct bg as [[]|]; simpl; [| |done]; by apply Forall_true. Qed.

  Lemma mem_score s (o : mobj) : mgood o -> exists o',
    spamprob_evidence mem_backend it s o =
      (o', pscore_evidence it (mlook (o_store o)) (o_nspam o) (o_nham o) (o_bigrams o) (elems s))
    /\ mgood o' /\ same_training o' o.
  Proof.
    intros Hg.
    destruct (spamprob_evidence_computes mem_backend it (fun _ => True) mlook (fun _ => True)
                mem_get s o (conj I Hg) (mem_adm _ _)) as (o'&E&L).
    exists o'. split_and!; [done|apply L|].
    pose proof (untouched_spamprob_evidence it s o) as Hu. by rewrite E in Hu.
  Qed.

  Lemma mem_score_plain s (o : mobj) : mgood o -> exists o',
    spamprob mem_backend it s o =
      (o', pscore it (mlook (o_store o)) (o_nspam o) (o_nham o) (o_bigrams o) (elems s))
    /\ mgood o' /\ same_training o' o.
  Proof.
    intros Hg.
    destruct (spamprob_computes mem_backend it (fun _ => True) mlook (fun _ => True)
                mem_get s o (conj I Hg) (mem_adm _ _)) as (o'&E&L).
    exists o'. split_and!; [done|apply L|].
    pose proof (untouched_spamprob it s o) as Hu. by rewrite E in Hu.
  Qed.

  Lemma mem_clues s (o : mobj) : mgood o -> exists o',
    getclues mem_backend it s o =
      (o', pclues it (mlook (o_store o)) (o_nspam o) (o_nham o) (o_bigrams o) (elems s))
    /\ mgood o' /\ same_training o' o.
  Proof.
    intros Hg.
    destruct (getclues_computes mem_backend it (fun _ => True) mlook (fun _ => True)
                mem_get s o (conj I Hg) (mem_adm _ _)) as (o'&E&L).
    exists o'. split_and!; [done|apply L|].
    pose proof (untouched_getclues it s o) as Hu. by rewrite E in Hu.
  Qed.

  Lemma empty_cache_good (o : mobj) : o_cache o = ∅ -> mgood o.
  Proof. intros E. unfold mgood, cache_ok. rewrite E. intros sc hc row p. by rewrite lookup_empty. Qed.

  Lemma learn_good s b (o : mobj) : mgood o -> mgood (fst (learn mem_backend it s b o)).
  Proof.
    intros Hg. destruct (o_bigrams o) as [bg|] eqn:Hbg.
    - destruct (learn_mem it Hit s b bg o Hbg) as (m'&->&_). by apply empty_cache_good.
    - unfold learn. by rewrite Hbg.
  Qed.

  Lemma unlearn_good s b (o : mobj) : mgood o -> mgood (fst (unlearn mem_backend it s b o)).
  Proof.
    intros Hg. destruct (o_bigrams o) as [bg|] eqn:Hbg.
    - destruct (Z.le_gt_cases (if b then o_nspam o else o_nham o) 0) as [Hz|Hp].
      + rewrite (unlearn_mem_zero it s b bg o) by done. by apply empty_cache_good.
      + destruct (unlearn_mem_pos it Hit s b bg o Hbg Hp) as (m'&->&_). by apply empty_cache_good.
    - unfold unlearn. by rewrite Hbg.
  Qed.

  Lemma run_call_good c (o : mobj) : mgood o -> mgood (fst (run_call mem_backend it c o)).
  Proof.
    intros Hg. destruct c as [s b|s b|s]; simpl.
    - pose proof (learn_good s b o Hg). by destruct (learn _ _ _ _ _).
    - pose proof (unlearn_good s b o Hg). by destruct (unlearn _ _ _ _ _).
    - destruct (mem_score s o Hg) as (o'&->&?&_). done.
  Qed.

  Lemma run_good h : forall (o : mobj), mgood o -> mgood (fst (run mem_backend it h o)).
  Proof.
    induction h as [|c h IH]; intros o Hg; simpl; [done|].
    pose proof (run_call_good c o Hg). destruct (run_call _ _ _ _) as [o' r]; simpl in *.
    specialize (IH o' H). by destruct (run _ _ _ _).
  Qed.

  Lemma reachable_good bg h : mgood (fst (run mem_backend it h (c_new bg ∅ : mobj))).
  Proof. apply run_good, empty_cache_good. done. Qed.

  (** Two objects with the same training behave the same. *)
  Lemma run_call_same c (o1 o2 : mobj) : mgood o1 -> mgood o2 -> same_training o1 o2 ->
    snd (run_call mem_backend it c o1) = snd (run_call mem_backend it c o2) /\
    same_training (fst (run_call mem_backend it c o1)) (fst (run_call mem_backend it c o2)).
  Proof.
    intros G1 G2 (Es&Eh&Em&Eb). destruct c as [s b|s b|s]; simpl.
    - destruct (o_bigrams o2) as [bg|] eqn:Hbg.
      + destruct (learn_mem it Hit s b bg o1 Eb) as (m1&->&H1).
        destruct (learn_mem it Hit s b bg o2 Hbg) as (m2&->&H2). simpl. split; [done|].
        split_and!; simpl; [by rewrite Es|by rewrite Eh| |done].
        apply map_eq; intros w. by rewrite H1, H2, Em.
      + unfold learn. rewrite Eb, Hbg. simpl. split; [done|]. split_and!; try done; congruence.
    - destruct (o_bigrams o2) as [bg|] eqn:Hbg.
      + destruct (Z.le_gt_cases (if b then o_nspam o2 else o_nham o2) 0) as [Hz|Hp].
        * rewrite (unlearn_mem_zero it s b bg o2) by done.
          rewrite (unlearn_mem_zero it s b bg o1) by (try done; by rewrite Es, Eh).
          simpl. split; [done|]. split_and!; done.
        * destruct (unlearn_mem_pos it Hit s b bg o2 Hbg Hp) as (m2&->&H2).
          rewrite <- Es, <- Eh in Hp.
          destruct (unlearn_mem_pos it Hit s b bg o1 Eb Hp) as (m1&->&H1). simpl. split; [done|].
          split_and!; simpl; [by rewrite Es|by rewrite Eh| |done].
          apply map_eq; intros w. by rewrite H1, H2, Em.
      + unfold unlearn. rewrite Eb, Hbg. simpl. split; [done|]. split_and!; try done; congruence.
    - destruct (mem_score s o1 G1) as (o1'&->&_&T1).
      destruct (mem_score s o2 G2) as (o2'&->&_&T2). simpl. split.
      + by rewrite Es, Eh, Em, Eb.
      + destruct T1 as (?&?&?&?), T2 as (?&?&?&?). split_and!; congruence.
  Qed.

  (** C07: a history in which some score calls are marked as extra *)
  Lemma unmarked_cons_true {B} (x : B) l : unmarked ((x, true) :: l) = unmarked l.
  Proof. done. Qed.
  Lemma unmarked_cons_false {B} (x : B) l : unmarked ((x, false) :: l) = x :: unmarked l.
  Proof. done. Qed.

  Lemma erase_scores (h : list (call * bool)) : forall (o1 o2 : mobj),
    Forall (fun p => p.2 = true -> exists s, p.1 = CScore s) h ->
    mgood o1 -> mgood o2 -> same_training o1 o2 ->
    let '(o1', r1) := run mem_backend it (fst <$> h) o1 in
    let '(o2', r2) := run mem_backend it (unmarked h) o2 in
    unmarked (zip r1 (snd <$> h)) = r2 /\ same_training o1' o2'.
  Proof.
    induction h as [|[c mk] h IH]; intros o1 o2 Hm G1 G2 T.
    - done.
    - apply Forall_cons in Hm as [Hc Hm]. cbn [fst snd] in Hc.
      rewrite !fmap_cons. cbn [fst snd run].
      pose proof (run_call_same c o1 o2 G1 G2 T) as [Er Et].
      pose proof (run_call_good c o1 G1) as G1'. pose proof (run_call_good c o2 G2) as G2'.
      destruct mk.
      + destruct (Hc eq_refl) as [s ->]. rewrite unmarked_cons_true. cbn [run_call].
        destruct (mem_score s o1 G1) as (o1'&->&G1''&T1).
        specialize (IH o1' o2 Hm G1'' G2 (same_training_trans _ _ _ T1 T)).
        destruct (run mem_backend it (fst <$> h) o1') as [o1'' r1].
        destruct (run mem_backend it (unmarked h) o2) as [o2'' r2].
        cbn [zip_with]. rewrite unmarked_cons_true. exact IH.
      + rewrite unmarked_cons_false. cbn [run].
        destruct (run_call mem_backend it c o1) as [o1' x1].
        destruct (run_call mem_backend it c o2) as [o2' x2]. cbn [fst snd] in *. subst x2.
        specialize (IH o1' o2' Hm G1' G2' Et).
        destruct (run mem_backend it (fst <$> h) o1') as [o1'' r1].
        destruct (run mem_backend it (unmarked h) o2') as [o2'' r2].
        cbn [zip_with]. rewrite unmarked_cons_false. destruct IH as [-> ?]. done.
  Qed.
End mem.
