(** * Lemmas about messages with parts *)
From Coq Require Import String Lia Wf_nat.
From Verif Require Import Py NumModel ClassifierModel TrainSpec TrainProofs ScoreSpec ClueProofs ScoreProofs StripModel
  RaiseModel RaiseProofs CdbModel TileProofs TokenModel TokenProofs MessageModel HeadModel HeadProofs HeadCallProofs OptProofs TreeModel TreeSpec.

(** ** Generators as sets *)
Lemma gfor_set {X} (f : X -> gen) xs : ((gfor f xs).2 = None <-> forall x, x ∈ xs -> (f x).2 = None) /\
  ((gfor f xs).2 = None -> forall w, w ∈ (gfor f xs).1 <-> exists x, x ∈ xs /\ w ∈ (f x).1).
Proof.
  induction xs as [|x xs [IH1 IH2]].
  - split; [split; [intros _ x H; by apply elem_of_nil in H|done]|]. intros _ w. cbn. split; [intros H; by apply elem_of_nil in H|].
    intros (x&H&_). by apply elem_of_nil in H.
  - cbn [gfor]. rewrite gapp_isnone, IH1. split.
    + split.
      * intros [H1 H2] y [->|Hy]%elem_of_cons; auto.
      * intros H. split; [apply H; left|]. intros y Hy. apply H. by right.
    + intros [H1 H2]. specialize (IH2 (proj2 IH1 H2)). intros w. unfold gapp.
      destruct (f x) as [ws o] eqn:Ef. cbn [snd] in H1. subst o. cbn [fst]. destruct (gfor f xs) as [ts o']. cbn [fst snd] in *.
      rewrite elem_of_app, IH2. split.
      * intros [H|(y&Hy&H)]; [exists x; split; [left|by rewrite Ef]|exists y; split; [by right|done]].
      * intros (y&[->|Hy]%elem_of_cons&H); [left; by rewrite Ef in H|right; eauto].
Qed.

Definition enc (w : pyword) : res codes :=
  match w with WStr s => utf8 s | WBytes b => Ok b | WNone => Err TypeError end.

Lemma convert_set ws e : ((convert_to_bytes ws e).2 = None <-> e = None /\ forall w, w ∈ ws -> exists b, enc w = Ok b) /\
  ((convert_to_bytes ws e).2 = None -> forall v, v ∈ (convert_to_bytes ws e).1 <-> exists w b, w ∈ ws /\ enc w = Ok b /\ v = WBytes b).
Proof.
  induction ws as [|w ws [IH1 IH2]].
  - cbn. split; [split; [intros ->; split; [done|]; intros w H; by apply elem_of_nil in H|by intros [-> _]]|].
    intros _ v. split; [intros H; by apply elem_of_nil in H|]. intros (w&b&H&_). by apply elem_of_nil in H.
  - assert (forall b, enc w = Ok b -> convert_to_bytes (w :: ws) e = gapp (gok [WBytes b]) (convert_to_bytes ws e)) as Hok.
    { intros b Hb. destruct w; cbn in *; [by rewrite Hb|by injection Hb as ->|done]. }
    assert (forall x, enc w = Err x -> convert_to_bytes (w :: ws) e = gerr x) as Herr.
    { intros x Hx. destruct w; cbn in *; [by rewrite Hx|done|by injection Hx as ->]. }
    destruct (enc w) as [b|x] eqn:Ew.
    + rewrite (Hok b eq_refl), gapp_ok. cbn [fst snd]. rewrite IH1. split.
      * split; intros [-> H]; (split; [done|]).
        -- intros w' [->|Hw]%elem_of_cons; eauto.
        -- intros w' Hw. apply H. by right.
      * intros H. specialize (IH2 (proj2 IH1 H)). intros v. cbn [app]. rewrite elem_of_cons, IH2. split.
        -- intros [->|(w'&b'&?&?&->)]; [exists w, b; split_and!; [left|done|done]|exists w', b'; split_and!; [by right|done|done]].
        -- intros (w'&b'&[->|Hw]%elem_of_cons&Hb&->); [left; congruence|right; eauto].
    + rewrite (Herr x eq_refl). cbn [gerr fst snd]. split; [|done]. split; [done|].
      intros [_ H]. destruct (H w) as [b Hb]; [left|]. congruence.
Qed.

(** What a call yields depends on sets only. *)
Lemma call_set U E o a2b parts parts' h texts texts' :
  (forall x, x ∈ parts <-> x ∈ parts') -> (forall t, t ∈ texts <-> t ∈ texts') ->
  let g := tokenizer_call U E false false o a2b parts h texts in
  let g' := tokenizer_call U E false false o a2b parts' h texts' in
  (g.2 = None <-> g'.2 = None) /\ (g.2 = None -> g'.2 = None -> forall w, w ∈ g.1 <-> w ∈ g'.1).
Proof.
  intros Hp Ht. cbv zeta. unfold tokenizer_call.
  assert (forall parts texts, gapp (tokenize_headers U E o parts h) (tokenize_body a2b texts) =
    gapp (gfor (crack_content_xyz U) parts) (gapp (tokenize_headers U E o [] h) (tokenize_body a2b texts))) as Hsplit.
  { intros ps ts. rewrite headers_split. set (a := gfor _ ps). set (b := tokenize_headers U E o [] h). set (c := tokenize_body a2b ts).
    unfold gapp. destruct a as [a [ea|]]; [done|]. destruct b as [b [eb|]]; [done|]. destruct c. by rewrite app_assoc. }
  rewrite (Hsplit parts texts), (Hsplit parts' texts'). clear Hsplit.
  destruct (gfor_set (crack_content_xyz U) parts) as [P1 P2]. destruct (gfor_set (crack_content_xyz U) parts') as [P1' P2'].
  destruct (gfor_set (tokenize_part a2b) texts) as [T1 T2]. destruct (gfor_set (tokenize_part a2b) texts') as [T1' T2'].
  fold (tokenize_body a2b texts) in T1, T2. fold (tokenize_body a2b texts') in T1', T2'.
  set (a := gfor (crack_content_xyz U) parts) in *. set (a' := gfor (crack_content_xyz U) parts') in *.
  set (c := tokenize_body a2b texts) in *. set (c' := tokenize_body a2b texts') in *. set (b := tokenize_headers U E o [] h).
  assert (a.2 = None <-> a'.2 = None) as Ha by (rewrite P1, P1'; split; intros H x Hx; apply H, Hp, Hx).
  assert (c.2 = None <-> c'.2 = None) as Hc by (rewrite T1, T1'; split; intros H x Hx; apply H, Ht, Hx).
  assert (a.2 = None -> forall w, w ∈ a.1 <-> w ∈ a'.1) as Haw.
  { intros H w. rewrite (P2 H), (P2' (proj1 Ha H)). split; intros (x&Hx&Hw); exists x; (split; [by apply Hp|done]). }
  assert (c.2 = None -> forall w, w ∈ c.1 <-> w ∈ c'.1) as Hcw.
  { intros H w. rewrite (T2 H), (T2' (proj1 Hc H)). split; intros (x&Hx&Hw); exists x; (split; [by apply Ht|done]). }
  clear P1 P2 P1' P2' T1 T2 T1' T2'. clearbody a a' b c c'.
  assert (forall g : gen, (let '(ts, e) := g in convert_to_bytes ts e) = convert_to_bytes g.1 g.2) as Hlet by (by intros []).
  rewrite !Hlet. clear Hlet.
  assert ((gapp a (gapp b c)).2 = None <-> (gapp a' (gapp b c')).2 = None) as Hn by (rewrite !gapp_isnone; tauto).
  assert ((gapp a (gapp b c)).2 = None -> forall w, w ∈ (gapp a (gapp b c)).1 <-> w ∈ (gapp a' (gapp b c')).1) as Hw.
  { rewrite !gapp_isnone. intros (H1&H2&H3) w. specialize (Haw H1 w). specialize (Hcw H3 w).
    apply Ha in H1 as H1'. apply Hc in H3 as H3'. unfold gapp.
    destruct a as [a ?], a' as [a' ?], b as [b ?], c as [c ?], c' as [c' ?]. cbn [fst snd] in *. subst. cbn [fst].
    rewrite !elem_of_app. tauto. }
  set (g := gapp a (gapp b c)) in *. set (g' := gapp a' (gapp b c')) in *. clearbody g g'.
  destruct (convert_set g.1 g.2) as [C1 C2]. destruct (convert_set g'.1 g'.2) as [C1' C2'].
  split.
  - rewrite C1, C1'. split; intros [H1 H2].
    + split; [by apply Hn|]. intros w Hin. apply H2. by apply Hw.
    + split; [by apply Hn|]. intros w Hin. apply H2. apply Hw; [by apply Hn|done].
  - intros H H' w. rewrite (C2 H), (C2' H'). apply C1 in H as [H _].
    split; intros (v&b0&Hv&?&?); exists v, b0; (split_and!; [by apply Hw|done|done]).
Qed.

(** ** Walking *)
Fixpoint part_size (p : part) : nat :=
  S (match p with Part _ _ (Leaf _) => O | Part _ _ (Multi ps) => sum_list_with part_size ps end).

Lemma walk_inside p m : p ∈ walk m <-> inside p m.
Proof.
  split.
  - revert p. induction m as [m IH] using (induction_ltof1 _ part_size). unfold ltof in IH. intros p.
    destruct m as [x h [b|ps]]; cbn [walk].
    + intros ->%elem_of_list_singleton. constructor.
    + intros [->|H]%elem_of_cons; [constructor|]. apply elem_of_list_In, in_flat_map in H as (q&Hq&Hp).
      apply elem_of_list_In in Hq, Hp. apply (inside_sub _ q); [done|]. apply IH; [|done].
      cbn [part_size]. clear IH Hp. induction ps as [|r ps IHp]; [by apply elem_of_nil in Hq|].
      cbn [sum_list_with]. apply elem_of_cons in Hq as [->|Hq]; [lia|]. specialize (IHp Hq). lia.
  - induction 1 as [p|p q x h ps Hq Hi IH].
    + destruct p as [x h [b|ps]]; left.
    + cbn [walk]. right. apply elem_of_list_In, in_flat_map. exists q. split; by apply elem_of_list_In.
Qed.

Lemma maintype_spec s : forall l, maintype s = l <-> 47%N ∉ l /\ (s = l \/ exists r, s = l ++ 47%N :: r).
Proof.
  induction s as [|c s IH]; intros l; cbn [maintype].
  - split.
    + intros <-. split; [apply not_elem_of_nil|by left].
    + intros [_ [->|[r H]]]; [done|]. by destruct l.
  - destruct (N.eqb_spec c 47) as [->|Hc].
    + split.
      * intros <-. split; [apply not_elem_of_nil|right; by exists s].
      * intros [Hl [<-|[r H]]]; [exfalso; apply Hl; left|]. destruct l as [|x l]; [done|].
        injection H as <- _. exfalso. apply Hl. left.
    + split.
      * intros <-. destruct (proj1 (IH (maintype s)) eq_refl) as [H1 H2]. split.
        -- rewrite not_elem_of_cons. done.
        -- destruct H2 as [H2|[r H2]]; [left; by f_equal|right; exists r; cbn; by f_equal].
      * intros [Hl [<-|[r H]]].
        -- f_equal. apply IH. split; [|by left]. apply not_elem_of_cons in Hl as [_ Hl]. done.
        -- destruct l as [|x l]; [by injection H as ->|]. injection H as <- H. f_equal. apply IH.
           apply not_elem_of_cons in Hl as [_ Hl]. split; [done|]. right. by exists r.
Qed.

Lemma is_text_spec p : is_text p = true <-> text_type (part_info p).
Proof.
  unfold is_text. rewrite bool_decide_eq_true, maintype_spec. unfold text_type. split.
  - intros [_ [H|[r H]]]; [by left|right; exists r; exact H].
  - intros H. split; [apply (bool_decide_unpack _); by vm_compute|]. destruct H as [H|[r H]]; [by left|right; exists r; exact H].
Qed.

(** ** Messages that are alike *)
Lemma alike_sym p q : alike p q -> alike q p.
Proof.
  revert q. induction p as [p IH] using (induction_ltof1 _ part_size). unfold ltof in IH.
  intros q H. destruct H as [x h h' b b' Hb|x h h' ps qs H1 H2]; constructor.
  - intros Hx. symmetry. auto.
  - intros q Hq. destruct (H2 q Hq) as (p&Hp&Ha). exists p. split; [done|]. apply IH; [|done].
    cbn [part_size]. clear -Hp. induction ps as [|r ps IHp]; [by apply elem_of_nil in Hp|].
    cbn [sum_list_with]. apply elem_of_cons in Hp as [->|Hp]; [lia|]. specialize (IHp Hp). lia.
  - intros p Hp. destruct (H1 p Hp) as (q&Hq&Ha). exists q. split; [done|]. apply IH; [|done].
    cbn [part_size]. clear -Hp. induction ps as [|r ps IHp]; [by apply elem_of_nil in Hp|].
    cbn [sum_list_with]. apply elem_of_cons in Hp as [->|Hp]; [lia|]. specialize (IHp Hp). lia.
Qed.

Lemma alike_refl p : alike p p.
Proof.
  induction p as [p IH] using (induction_ltof1 _ part_size). unfold ltof in IH.
  destruct p as [x h [b|ps]]; constructor; [done| |].
  all: intros p Hp; exists p; split; [done|]; apply IH; cbn [part_size]; clear -Hp;
    induction ps as [|r ps IHp]; [by apply elem_of_nil in Hp|];
    cbn [sum_list_with]; apply elem_of_cons in Hp as [->|Hp]; [lia|]; specialize (IHp Hp); lia.
Qed.

Lemma alike_inside m m' p : inside p m -> alike m m' -> exists p', inside p' m' /\ alike p p'.
Proof.
  intros Hi. revert m'. induction Hi as [p|p q x h ps Hq Hi IH]; intros m' Ha; [exists m'; split; [constructor|done]|].
  inversion Ha as [|? ? h' ? qs H1 H2]; subst. destruct (H1 q Hq) as (q'&Hq'&Haq). destruct (IH _ Haq) as (p'&Hp'&Hap).
  exists p'. split; [|done]. by apply (inside_sub _ q').
Qed.

Lemma alike_node p p' : alike p p' -> part_info p = part_info p' /\ (text_type (part_info p) -> part_payload p = part_payload p').
Proof. intros H. destruct H as [x h h' b b' Hb|]; cbn; auto. Qed.

Section messages.
  Context (U : unicode) (E : mailpkg) (o : topts) (a2b : codes -> res codes).

  Lemma alike_sub order order' m m' : parts_order_ok order -> parts_order_ok order' -> alike m m' ->
    (forall x, x ∈ part_info <$> walk m -> x ∈ part_info <$> walk m') /\
    (forall t, t ∈ part_payload <$> textparts order m -> t ∈ part_payload <$> textparts order' m').
  Proof.
    intros Ho Ho' Ha. split.
    - intros x (p&->&Hp)%elem_of_list_fmap. apply walk_inside in Hp. destruct (alike_inside _ _ _ Hp Ha) as (p'&Hp'&Hap).
      apply elem_of_list_fmap. exists p'. split; [by apply alike_node|]. by apply walk_inside.
    - intros t (p&->&Hp)%elem_of_list_fmap. unfold textparts in Hp. rewrite (Ho _), elem_of_list_filter in Hp. destruct Hp as [Ht Hp].
      apply walk_inside in Hp. destruct (alike_inside _ _ _ Hp Ha) as (p'&Hp'&Hap).
      apply is_text_spec in Ht as Ht'. destruct (alike_node _ _ Hap) as [Hi Hpay].
      apply elem_of_list_fmap. exists p'. split; [by apply Hpay|]. unfold textparts. rewrite (Ho' _), elem_of_list_filter.
      split; [|by apply walk_inside]. apply is_text_spec. by rewrite <- Hi.
  Qed.

  Lemma alike_tokens order order' m m' : parts_order_ok order -> parts_order_ok order' ->
    part_headers m = part_headers m' -> alike m m' ->
    let g := tokenize_message U E order o a2b m in
    let g' := tokenize_message U E order' o a2b m' in
    (g.2 = None <-> g'.2 = None) /\ (g.2 = None -> g'.2 = None -> forall w, w ∈ g.1 <-> w ∈ g'.1).
  Proof.
    intros Ho Ho' Hh Ha. unfold tokenize_message. rewrite Hh.
    destruct (alike_sub order order' m m' Ho Ho' Ha) as [H1 H2].
    destruct (alike_sub order' order m' m Ho' Ho (alike_sym _ _ Ha)) as [H1' H2'].
    apply call_set; [intros x|intros t]; split; auto.
  Qed.

  Lemma alike_learn {A : num} it order order' m m' is_spam (ob : obj A (gmap pyword winfo)) :
    parts_order_ok order -> parts_order_ok order' -> set_order_ok it ->
    part_headers m = part_headers m' -> alike m m' -> o_bigrams ob = Some false ->
    let r := learn_gen mem_backend it (tokenize_message U E order o a2b m) is_spam ob in
    let r' := learn_gen mem_backend it (tokenize_message U E order' o a2b m') is_spam ob in
    same_training r.1 r'.1 /\ is_ok r.2 = is_ok r'.2.
  Proof.
    intros Ho Ho' Hit Hh Ha Hb. cbv zeta.
    destruct (alike_tokens order order' m m' Ho Ho' Hh Ha) as [Hn Hw].
    set (g := tokenize_message U E order o a2b m) in *. set (g' := tokenize_message U E order' o a2b m') in *. clearbody g g'.
    destruct g as [ws [e|]], g' as [ws' [e'|]]; cbn [fst snd] in Hn, Hw.
    - destruct (learn_gen_raises mem_backend it ws e is_spam ob) as (o1&->&A1&A2&A3&A4&_); [by rewrite Hb|].
      destruct (learn_gen_raises mem_backend it ws' e' is_spam ob) as (o2&->&B1&B2&B3&B4&_); [by rewrite Hb|].
      cbn [fst snd is_ok]. split; [|done]. unfold same_training. split_and!; congruence.
    - by destruct (proj2 Hn eq_refl).
    - by destruct (proj1 Hn eq_refl).
    - specialize (Hw eq_refl eq_refl).
      assert (same_training (train it [(SIter ws, is_spam)] ob) (train it [(SIter ws', is_spam)] ob)) as Ht.
      { apply (train_order it it false); [done..|]. exists [(SIter ws, is_spam)]. split; [done|].
        constructor; [|constructor]. split; [done|]. exact Hw. }
      unfold train in Ht. cbn [fmap list_fmap fst snd run run_call] in Ht.
      rewrite !learn_gen_ok. destruct (learn_mem it Hit (SIter ws) is_spam false ob Hb) as (m1&E1&_).
      destruct (learn_mem it Hit (SIter ws') is_spam false ob Hb) as (m2&E2&_).
      rewrite E1, E2 in Ht |- *. cbn [fst snd is_ok] in *. done.
  Qed.

  Lemma alike_score {A : num} (HA : total_num A) it0 it order order' m m' hist :
    parts_order_ok order -> parts_order_ok order' -> set_order_ok it0 -> set_order_ok it ->
    part_headers m = part_headers m' -> alike m m' ->
    let ob := fst (run mem_backend it0 hist (c_new false ∅ : obj A (gmap pyword winfo))) in
    same_result (score_gen mem_backend it (tokenize_message U E order o a2b m) ob).2
                (score_gen mem_backend it (tokenize_message U E order' o a2b m') ob).2.
  Proof.
    intros Ho Ho' H0 Hit Hh Ha. cbv zeta.
    destruct (alike_tokens order order' m m' Ho Ho' Hh Ha) as [Hn Hw].
    set (g := tokenize_message U E order o a2b m) in *. set (g' := tokenize_message U E order' o a2b m') in *. clearbody g g'.
    destruct g as [ws [e|]], g' as [ws' [e'|]]; cbn [fst snd] in Hn, Hw.
    - done.
    - by destruct (proj2 Hn eq_refl).
    - by destruct (proj1 Hn eq_refl).
    - cbn [score_gen]. apply (score_same HA it0 it it hist (SIter ws) (SIter ws')); try done. by apply Hw.
  Qed.
End messages.

(** ** Parts one by one *)
Lemma call_mem U E o a2b parts h texts :
  let g := tokenizer_call U E false false o a2b parts h texts in
  let src w := (exists x, x ∈ parts /\ w ∈ (crack_content_xyz U x).1) \/ w ∈ (tokenize_headers U E o [] h).1 \/
               (exists t, t ∈ texts /\ w ∈ (tokenize_part a2b t).1) in
  (g.2 = None <-> (forall x, x ∈ parts -> (crack_content_xyz U x).2 = None) /\ (tokenize_headers U E o [] h).2 = None /\
                  (forall t, t ∈ texts -> (tokenize_part a2b t).2 = None) /\ (forall w, src w -> exists b, enc w = Ok b)) /\
  (g.2 = None -> forall v, v ∈ g.1 <-> exists w b, src w /\ enc w = Ok b /\ v = WBytes b).
Proof.
  cbv zeta. unfold tokenizer_call.
  assert (gapp (tokenize_headers U E o parts h) (tokenize_body a2b texts) =
    gapp (gfor (crack_content_xyz U) parts) (gapp (tokenize_headers U E o [] h) (tokenize_body a2b texts))) as ->.
  { rewrite headers_split. set (a := gfor _ parts). set (b := tokenize_headers U E o [] h). set (c := tokenize_body a2b texts).
    unfold gapp. destruct a as [a [ea|]]; [done|]. destruct b as [b [eb|]]; [done|]. destruct c. by rewrite app_assoc. }
  destruct (gfor_set (crack_content_xyz U) parts) as [P1 P2]. destruct (gfor_set (tokenize_part a2b) texts) as [T1 T2].
  fold (tokenize_body a2b texts) in T1, T2.
  rewrite <- P1, <- T1. clear P1 T1.
  set (a := gfor (crack_content_xyz U) parts) in *. set (c := tokenize_body a2b texts) in *. set (b := tokenize_headers U E o [] h) in *.
  assert (forall g : gen, (let '(ts, e) := g in convert_to_bytes ts e) = convert_to_bytes g.1 g.2) as -> by (by intros []).
  destruct (convert_set (gapp a (gapp b c)).1 (gapp a (gapp b c)).2) as [C1 C2].
  assert (a.2 = None -> b.2 = None -> c.2 = None -> forall w, w ∈ (gapp a (gapp b c)).1 <->
    (exists x, x ∈ parts /\ w ∈ (crack_content_xyz U x).1) \/ w ∈ b.1 \/ (exists t, t ∈ texts /\ w ∈ (tokenize_part a2b t).1)) as Hw.
  { intros H1 H2 H3 w. rewrite <- (P2 H1), <- (T2 H3). clear P2 T2 C1 C2. clearbody a b c. unfold gapp.
    destruct a as [a ?], b as [b ?], c as [c ?]. cbn [fst snd] in *. subst. cbn [fst]. rewrite !elem_of_app. tauto. }
  assert ((convert_to_bytes (gapp a (gapp b c)).1 (gapp a (gapp b c)).2).2 = None -> a.2 = None /\ b.2 = None /\ c.2 = None) as Hn.
  { intros [H _]%C1. by rewrite !gapp_isnone in H. }
  split.
  - split.
    + intros H. destruct (Hn H) as (H1&H2&H3). split_and!; [done..|]. intros w Hs. apply C1 in H as [_ H]. apply H. by apply Hw.
    + intros (H1&H2&H3&H). apply C1. rewrite !gapp_isnone. split; [done|]. intros w Hin. apply H. by apply Hw.
  - intros H v. destruct (Hn H) as (H1&H2&H3). rewrite (C2 H).
    split; intros (w&bs&Hs&He&->); exists w, bs; (split_and!; [by apply Hw|done|done]).
Qed.

Section one_by_one.
  Context (U : unicode) (E : mailpkg) (o : topts) (a2b : codes -> res codes).

  Lemma textparts_in order m t : parts_order_ok order ->
    t ∈ part_payload <$> textparts order m <-> exists p, inside p m /\ is_text p = true /\ t = part_payload p.
  Proof.
    intros Ho. rewrite elem_of_list_fmap. unfold textparts. split.
    - intros (p&->&Hp). rewrite (Ho _), elem_of_list_filter in Hp. destruct Hp as [Ht Hp]. exists p. by rewrite <- walk_inside.
    - intros (p&Hi&Ht&->). exists p. split; [done|]. rewrite (Ho _), elem_of_list_filter. by rewrite walk_inside.
  Qed.
  Lemma infos_in m x : x ∈ part_info <$> walk m <-> exists p, inside p m /\ x = part_info p.
  Proof.
    rewrite elem_of_list_fmap. split; intros (p&H1&H2); exists p; [by rewrite <- walk_inside|by rewrite walk_inside].
  Qed.
  Lemma alone_inside h p q : inside q (alone h p) <-> q = alone h p.
  Proof.
    split; [|intros ->; constructor]. destruct p as [x h' [b|ps]]; cbn [alone]; intros H; inversion H; subst; try done.
    by apply elem_of_nil in H3 || (match goal with H : _ ∈ [] |- _ => by apply elem_of_nil in H end).
  Qed.
  Lemma alone_info h p : part_info (alone h p) = part_info p. Proof. by destruct p as [x h' [b|ps]]. Qed.
  Lemma alone_payload h p : part_payload (alone h p) = part_payload p. Proof. by destruct p as [x h' [b|ps]]. Qed.
  Lemma alone_headers h p : part_headers (alone h p) = h. Proof. by destruct p as [x h' [b|ps]]. Qed.
  Lemma alone_text h p : is_text (alone h p) = is_text p. Proof. unfold is_text. by rewrite alone_info. Qed.

  Lemma parts_one_by_one order order' m : parts_order_ok order -> parts_order_ok order' ->
    let g := tokenize_message U E order o a2b m in
    let each p := tokenize_message U E order' o a2b (alone (part_headers m) p) in
    (g.2 = None <-> forall p, inside p m -> (each p).2 = None) /\
    (g.2 = None -> forall w, w ∈ g.1 <-> exists p, inside p m /\ w ∈ (each p).1).
  Proof.
    intros Ho Ho'. cbv zeta. unfold tokenize_message at 1 3 4.
    destruct (call_mem U E o a2b (part_info <$> walk m) (part_headers m) (part_payload <$> textparts order m)) as [G1 G2].
    assert (forall p, let g := tokenize_message U E order' o a2b (alone (part_headers m) p) in
      let src w := w ∈ (crack_content_xyz U (part_info p)).1 \/ w ∈ (tokenize_headers U E o [] (part_headers m)).1 \/
               (is_text p = true /\ w ∈ (tokenize_part a2b (part_payload p)).1) in
      (g.2 = None <-> (crack_content_xyz U (part_info p)).2 = None /\ (tokenize_headers U E o [] (part_headers m)).2 = None /\
                  (is_text p = true -> (tokenize_part a2b (part_payload p)).2 = None) /\ (forall w, src w -> exists b, enc w = Ok b)) /\
      (g.2 = None -> forall v, v ∈ g.1 <-> exists w b, src w /\ enc w = Ok b /\ v = WBytes b)) as HP.
    { intros p. cbv zeta. unfold tokenize_message. rewrite alone_headers.
      destruct (call_mem U E o a2b (part_info <$> walk (alone (part_headers m) p)) (part_headers m)
        (part_payload <$> textparts order' (alone (part_headers m) p))) as [K1 K2].
      assert (forall x, x ∈ part_info <$> walk (alone (part_headers m) p) <-> x = part_info p) as I1.
      { intros x. rewrite infos_in. setoid_rewrite alone_inside. split; [intros (q&->&->); apply alone_info|].
        intros ->. eexists. split; [done|]. by rewrite alone_info. }
      assert (forall t, t ∈ part_payload <$> textparts order' (alone (part_headers m) p) <-> is_text p = true /\ t = part_payload p) as I2.
      { intros t. rewrite (textparts_in _ _ _ Ho'). setoid_rewrite alone_inside. split.
        - intros (q&->&Ht&->). by rewrite alone_text in Ht; rewrite alone_payload.
        - intros [Ht ->]. eexists. split; [done|]. by rewrite alone_text, alone_payload. }
      set (g := tokenizer_call U E false false o a2b _ _ _) in *. clearbody g.
      setoid_rewrite I1 in K1. setoid_rewrite I2 in K1. setoid_rewrite I1 in K2. setoid_rewrite I2 in K2.
      assert (forall w, ((exists x, x = part_info p /\ w ∈ (crack_content_xyz U x).1) \/ w ∈ (tokenize_headers U E o [] (part_headers m)).1 \/
         (exists t, (is_text p = true /\ t = part_payload p) /\ w ∈ (tokenize_part a2b t).1)) <->
         (w ∈ (crack_content_xyz U (part_info p)).1 \/ w ∈ (tokenize_headers U E o [] (part_headers m)).1 \/
               (is_text p = true /\ w ∈ (tokenize_part a2b (part_payload p)).1))) as Hs by (intros w; naive_solver).
      setoid_rewrite Hs in K1. setoid_rewrite Hs in K2. split; [|exact K2]. rewrite K1.
      split; intros (Q1&Q2&Q3&Q4); split_and!; try done; naive_solver. }
    setoid_rewrite infos_in in G1. setoid_rewrite infos_in in G2.
    setoid_rewrite (fun t => textparts_in order m t Ho) in G1. setoid_rewrite (fun t => textparts_in order m t Ho) in G2.
    set (g := tokenizer_call U E false false o a2b (part_info <$> walk m) _ _) in *. clearbody g.
    set (each := fun p => tokenize_message U E order' o a2b (alone (part_headers m) p)) in *.
    change (forall p, inside p m -> (tokenize_message U E order' o a2b (alone (part_headers m) p)).2 = None)
      with (forall p, inside p m -> (each p).2 = None).
    assert (g.2 = None <-> forall p, inside p m -> (each p).2 = None) as Hn.
    { rewrite G1. split.
      - intros (Q1&Q2&Q3&Q4) p Hp. apply (HP p). split_and!; [naive_solver|done|naive_solver|].
        intros w [H|[H|[Ht H]]]; apply Q4; [left; eauto|by right; left|right; right; eauto 7].
      - intros H. split_and!.
        + intros x (p&Hp&->). by apply (HP p), H.
        + apply (HP m), H. constructor.
        + intros t (p&Hp&Ht&->). by apply (HP p); [apply H|].
        + intros w [(x&(p&Hp&->)&Hw)|[Hw|(t&(p&Hp&Ht&->)&Hw)]].
          * apply (HP p); [by apply H|by left].
          * apply (HP m); [apply H; constructor|by right; left].
          * apply (HP p); [by apply H|by right; right]. }
    split; [exact Hn|]. intros H v. rewrite (G2 H). pose proof (proj1 Hn H) as HE. split.
    - intros (w&b&[(x&(p&Hp&->)&Hw)|[Hw|(t&(p&Hp&Ht&->)&Hw)]]&Hb&->).
      + exists p. split; [done|]. apply (HP p); [by apply HE|]. exists w, b. split_and!; [by left|done..].
      + exists m. split; [constructor|]. apply (HP m); [apply HE; constructor|]. exists w, b. split_and!; [by right; left|done..].
      + exists p. split; [done|]. apply (HP p); [by apply HE|]. exists w, b. split_and!; [by right; right|done..].
    - intros (p&Hp&Hv). apply (HP p) in Hv as (w&b&Hs&Hb&->); [|by apply HE]. exists w, b. split_and!; [|done..].
      destruct Hs as [Hw|[Hw|[Ht Hw]]]; [left; eauto|by right; left|right; right; eauto 7].
  Qed.
End one_by_one.

(** ** Parts listed in another order, or several times *)
Lemma same_parts_alike x h ps qs : (forall p, p ∈ ps <-> p ∈ qs) -> alike (Part x h (Multi ps)) (Part x h (Multi qs)).
Proof.
  intros H. constructor.
  - intros p Hp. exists p. split; [by apply H|apply alike_refl].
  - intros p Hp. exists p. split; [by apply H|apply alike_refl].
Qed.

Section rearranged.
  Context (U : unicode) (E : mailpkg) (o : topts) (a2b : codes -> res codes).
  Lemma same_parts_learn {A : num} it order order' x h ps qs is_spam (ob : obj A (gmap pyword winfo)) :
    parts_order_ok order -> parts_order_ok order' -> set_order_ok it -> (forall p, p ∈ ps <-> p ∈ qs) -> o_bigrams ob = Some false ->
    let r := learn_gen mem_backend it (tokenize_message U E order o a2b (Part x h (Multi ps))) is_spam ob in
    let r' := learn_gen mem_backend it (tokenize_message U E order' o a2b (Part x h (Multi qs))) is_spam ob in
    same_training r.1 r'.1 /\ is_ok r.2 = is_ok r'.2.
  Proof. intros H1 H2 H3 H4 H5. apply alike_learn; try done. by apply same_parts_alike. Qed.

  Lemma same_parts_score {A : num} (HA : total_num A) it0 it order order' x h ps qs hist :
    parts_order_ok order -> parts_order_ok order' -> set_order_ok it0 -> set_order_ok it -> (forall p, p ∈ ps <-> p ∈ qs) ->
    let ob := fst (run mem_backend it0 hist (c_new false ∅ : obj A (gmap pyword winfo))) in
    same_result (score_gen mem_backend it (tokenize_message U E order o a2b (Part x h (Multi ps))) ob).2
                (score_gen mem_backend it (tokenize_message U E order' o a2b (Part x h (Multi qs))) ob).2.
  Proof. intros H1 H2 H3 H4 H5. apply (alike_score U E o a2b HA it0 it order order'); try done. by apply same_parts_alike. Qed.
End rearranged.

(** A part with parts has no text of its own. *)
Lemma container_alone U E o a2b order x h :
  parts_order_ok order ->
  tokenize_message U E order o a2b (Part x h (Multi [])) = tokenize_message U E order o a2b (Part x h (Leaf PNone)) /\
  (~ text_type x -> forall b, tokenize_message U E order o a2b (Part x h (Multi [])) = tokenize_message U E order o a2b (Part x h (Leaf b))).
Proof.
  intros Hord. unfold tokenize_message. cbn [walk flat_map fmap list_fmap part_info part_headers].
  assert (forall p, part_payload <$> textparts order p = part_payload <$> (filter (fun p => is_text p = true) (walk p)) \/ length (walk p) <> 1) as Ho.
  { intros p. destruct (walk p) as [|q [|? ?]] eqn:Ew; [by right| |by right]. left. unfold textparts. rewrite Ew.
    rewrite filter_cons, filter_nil. case_decide.
    - specialize (Hord [q]). apply Permutation_singleton_r in Hord. by rewrite Hord.
    - specialize (Hord []). apply Permutation_nil_r in Hord. by rewrite Hord. }
  destruct (Ho (Part x h (Multi []))) as [->|Hn]; [|by destruct Hn].
  split; [|intros Ht b];
    match goal with |- _ = tokenizer_call _ _ _ _ _ _ _ _ (_ <$> textparts _ ?q) => destruct (Ho q) as [->|Hn]; [|by destruct Hn] end;
    cbn [walk flat_map]; rewrite !filter_cons, !filter_nil; unfold is_text; cbn [part_info].
  - by case_decide.
  - case_decide as Hd; [|done]. destruct Ht. by apply (is_text_spec (Part x h (Multi []))).
Qed.
