(** * The layout of plain texts does not matter (C116) *)
From Coq Require Import String.
From Verif Require Import Py NumModel ClassifierModel TrainSpec TrainProofs ScoreSpec ScoreProofs RegexSpec StripModel StripSpec StripProofs RaiseModel RaiseProofs
  TokenModel TokenSpec TokenProofs MessageModel HeadModel TreeModel TreeSpec TreeProofs SeenSpec SeenProofs LayoutSpec.

Lemma plain_left_over b t : Forall (fun c => c ∉ str "<&=:") b -> Forall2 lower_of b t -> left_over t t [].
Proof.
  intros HP HL.
  assert (HPt : Forall (fun c => c ∉ str "<&=:") t).
  { apply (lower_not_in b); [done| |done]. change (str "<&=:") with [60; 38; 61; 58]%N. by repeat constructor. }
  assert (K : forall P : codes -> codes -> codes -> Prop, (forall x w y, P x w y -> Exists (fun c => c ∈ str "<&=:") w) -> nowhere P [] t).
  { intros P HPw x w y Es H. apply HPw in H. apply Exists_exists in H as (c & H1 & H2).
    exact (not_in_absurd c _ _ _ _ _ HPt Es H1 H2). }
  assert (K60 : forall P : codes -> codes -> codes -> Prop, (forall x w y, P x w y -> 60%N ∈ w) -> nowhere P [] t).
  { intros P HPw. apply K. intros x w y H. apply Exists_exists. exists 60%N. split; [by eapply HPw|in_literal]. }
  exists t, t, t, [], [], []. split_and!; constructor.
  - apply K. intros x w y [(p & g & -> & _) _]. apply Exists_exists. exists 58%N. split; [|in_literal].
    rewrite !elem_of_app. right; left. in_literal.
  - apply K60. intros x w y (sp & at_ & -> & _). left.
  - apply K60. intros x w y [-> |(sp & at_ & -> & _)]; left.
  - apply K60. intros x w y (sp & sp' & -> & _). left.
Qed.

(** The words a plain text yields *)
Lemma plain_words b t ws : plain_body b -> Forall2 lower_of b t -> words t ws ->
  let g := tokenize_payload b in
  (g.2 = None <-> forall w, w ∈ ws -> ~ bad_word w) /\
  (g.2 = None -> forall v, v ∈ g.1 <-> exists w ts, w ∈ ws /\ word_tokens w ts /\ v ∈ ts).
Proof.
  intros [Hc Hu] HL HW. cbv zeta. specialize (Hu t HL).
  assert ((tokenize_payload b).2 = None -> forall w, w ∈ ws -> ~ bad_word w) as H1.
  { intros Hn. destruct (payload_cases b) as [(ts & _ & _ & HT)|[H _]]; [|by rewrite H in Hn].
    destruct HT as (s&s'&urls&ws'&L1&L2&L3&_&_&_&_&L4).
    apply lower_unique in HL as Et. apply lower_unique in L1 as Es. assert (s = t) as -> by congruence.
    destruct (left_over_det _ _ _ _ _ L2 (plain_left_over b t Hc HL)) as [-> _].
    apply words_unique in L3. apply words_unique in HW. assert (ws' = ws) as -> by congruence. by apply Forall_forall. }
  assert (forall (G : forall w, w ∈ ws -> ~ bad_word w), exists wss, Forall2 word_tokens ws wss /\ tokenize_payload b = (mjoin wss, None)) as H2.
  { intros G. assert (exists wss, Forall2 word_tokens ws wss) as (wss&Hwss).
    { clear - G. induction ws as [|w ws IH]; [by exists []|]. destruct IH as (wss&Hw); [intros u Hu; apply G; by right|].
      destruct (good_word_tokens w) as (ts&_&Ht); [apply G; left|]. exists (ts :: wss). by constructor. }
    exists wss. split; [done|]. apply (plain_text b t ws); [done..| |done]. by apply Forall_forall. }
  split.
  - split; [exact H1|]. intros G. destruct (H2 G) as (wss&_&->). done.
  - intros Hn v. destruct (H2 (H1 Hn)) as (wss&Hf&->). cbn [fst]. rewrite elem_of_list_join. split.
    + intros (ts&Hv&Hts). apply elem_of_list_lookup in Hts as (i&Hi).
      destruct (Forall2_lookup_r _ _ _ _ _ Hf Hi) as (w&Hw&Ht). exists w, ts. split_and!; [by eapply elem_of_list_lookup_2|done..].
    + intros (w&ts&Hw&Ht&Hv). apply elem_of_list_lookup in Hw as (i&Hi).
      destruct (Forall2_lookup_l _ _ _ _ _ Hf Hi) as (ts'&Hts'&Ht'). rewrite (word_tokens_det _ _ _ Ht Ht') in Hv.
      exists ts'. split; [done|]. by eapply elem_of_list_lookup_2.
Qed.

Lemma plain_same b b' : plain_body b -> plain_body b' -> same_text b b' -> same_words (tokenize_payload b) (tokenize_payload b').
Proof.
  intros Hb Hb' (t&t'&ws&ws'&L&L'&W&W'&Hw).
  destruct (plain_words b t ws Hb L W) as [N1 E1]. destruct (plain_words b' t' ws' Hb' L' W') as [N2 E2]. split.
  - rewrite N1, N2. by setoid_rewrite Hw.
  - intros H H' v. rewrite (E1 H), (E2 H'). by setoid_rewrite Hw.
Qed.

Lemma payload_same a2b p p' : same_payload p p' -> same_words (tokenize_part a2b p) (tokenize_part a2b p').
Proof. intros [->|(b&b'&->&->&?&?&?)]; [done|]. by apply plain_same. Qed.

(** ** Messages *)
Lemma same_payload_sym p p' : same_payload p p' -> same_payload p' p.
Proof.
  intros [->|(b&b'&->&->&H1&H2&t&t'&ws&ws'&L&L'&W&W'&Hw)]; [by left|]. right. exists b', b. split_and!; [done..|].
  exists t', t, ws', ws. split_and!; [done..|]. intros w. by rewrite Hw.
Qed.

Fixpoint laid_sym_fix (m : part) : forall m', laid_out m m' -> laid_out m' m.
Proof.
  intros m' H. destruct m as [x h [b|ps]]; inversion H as [x0 h0 h' p p' Hp|x0 h0 h' ps0 qs H1 H2]; subst.
  - constructor. intros Ht. by apply same_payload_sym, Hp.
  - assert (forall p q, p ∈ ps -> laid_out p q -> laid_out q p) as Hs.
    { clear - laid_sym_fix. induction ps as [|p ps IH]; intros p' q Hp Hq; [by apply elem_of_nil in Hp|].
      apply elem_of_cons in Hp. destruct Hp as [E|Hp]; [|by apply (IH p' q)].
      rewrite E in Hq |- *. by apply laid_sym_fix. }
    constructor.
    + intros q Hq. destruct (H2 q Hq) as (p&Hp&Hl). exists p. split; [done|]. by apply Hs.
    + intros p Hp. destruct (H1 p Hp) as (q&Hq&Hl). exists q. split; [done|]. by apply Hs.
Defined.

Lemma laid_sym m m' : laid_out m m' -> laid_out m' m.
Proof. apply laid_sym_fix. Qed.

Lemma laid_inside m m' p : inside p m -> laid_out m m' -> exists p', inside p' m' /\ laid_out p p'.
Proof.
  intros Hi. revert m'. induction Hi as [p|p q x h ps Hq Hi IH]; intros m' Ha; [exists m'; split; [constructor|done]|].
  inversion Ha as [|? ? h' ? qs H1 H2]; subst. destruct (H1 q Hq) as (q'&Hq'&Haq). destruct (IH _ Haq) as (p'&Hp'&Hap).
  exists p'. split; [|done]. by apply (inside_sub _ q').
Qed.

Lemma laid_node p p' : laid_out p p' -> part_info p = part_info p' /\ (text_type (part_info p) -> same_payload (part_payload p) (part_payload p')).
Proof. intros H. destruct H as [x h h' b b' Hb|]; cbn; auto. split; [done|]. by left. Qed.

Section messages.
  Context (U : unicode) (E : mailpkg) (o : topts) (a2b : codes -> res codes).

  Lemma laid_sub order order' m m' : parts_order_ok order -> parts_order_ok order' -> laid_out m m' ->
    (forall x, x ∈ part_info <$> walk m -> x ∈ part_info <$> walk m') /\
    (forall t, t ∈ part_payload <$> textparts order m -> exists t', t' ∈ part_payload <$> textparts order' m' /\ same_payload t t').
  Proof.
    intros Ho Ho' Ha. split.
    - intros x (p&->&Hp)%elem_of_list_fmap. apply walk_inside in Hp. destruct (laid_inside _ _ _ Hp Ha) as (p'&Hp'&Hap).
      apply elem_of_list_fmap. exists p'. split; [by apply laid_node|]. by apply walk_inside.
    - intros t H. apply (textparts_in order m t Ho) in H as (p&Hp&Ht&->). destruct (laid_inside _ _ _ Hp Ha) as (p'&Hp'&Hap).
      destruct (laid_node _ _ Hap) as [Hi Hpay]. exists (part_payload p'). split; [|by apply Hpay, is_text_spec].
      apply (textparts_in order' m' _ Ho'). exists p'. split_and!; [done| |done]. apply is_text_spec. rewrite <- Hi. by apply is_text_spec.
  Qed.

  Lemma laid_tokens order order' m m' : parts_order_ok order -> parts_order_ok order' -> count_all o = false ->
    seen (mine_received o) (part_headers m) = seen (mine_received o) (part_headers m') -> laid_out m m' ->
    same_words (tokenize_message U E order o a2b m) (tokenize_message U E order' o a2b m').
  Proof.
    intros Ho Ho' Hc Hs Ha. unfold tokenize_message. rewrite (call_seen U E o a2b _ _ _ _ Hc Hs).
    destruct (laid_sub order order' m m' Ho Ho' Ha) as [H1 H2].
    destruct (laid_sub order' order m' m Ho' Ho (laid_sym _ _ Ha)) as [H1' H2'].
    destruct (call_mem U E o a2b (part_info <$> walk m) (part_headers m') (part_payload <$> textparts order m)) as [G1 G2].
    destruct (call_mem U E o a2b (part_info <$> walk m') (part_headers m') (part_payload <$> textparts order' m')) as [K1 K2].
    set (g := tokenizer_call U E false false o a2b (part_info <$> walk m) _ _) in *.
    set (g' := tokenizer_call U E false false o a2b (part_info <$> walk m') _ _) in *. clearbody g g'.
    set (xs := part_info <$> walk m) in *. set (xs' := part_info <$> walk m') in *.
    set (ts := part_payload <$> textparts order m) in *. set (ts' := part_payload <$> textparts order' m') in *. clearbody xs xs' ts ts'.
    assert (forall x, x ∈ xs <-> x ∈ xs') as Hx by (split; auto). clear H1 H1'.
    assert ((forall t, t ∈ ts -> (tokenize_part a2b t).2 = None) <-> forall t, t ∈ ts' -> (tokenize_part a2b t).2 = None) as Hn.
    { split; intros H t Ht.
      - destruct (H2' t Ht) as (u&Hu&Hp). apply (proj1 (payload_same a2b _ _ Hp)). by apply H.
      - destruct (H2 t Ht) as (u&Hu&Hp). apply (proj1 (payload_same a2b _ _ Hp)). by apply H. }
    assert ((forall t, t ∈ ts -> (tokenize_part a2b t).2 = None) ->
      forall w, (exists t, t ∈ ts /\ w ∈ (tokenize_part a2b t).1) <-> exists t, t ∈ ts' /\ w ∈ (tokenize_part a2b t).1) as Hw.
    { intros HN w. pose proof (proj1 Hn HN) as HN'. split; intros (t&Ht&Hin).
      - destruct (H2 t Ht) as (u&Hu&Hp). exists u. split; [done|]. by apply (proj2 (payload_same a2b _ _ Hp) (HN t Ht) (HN' u Hu)).
      - destruct (H2' t Ht) as (u&Hu&Hp). exists u. split; [done|]. by apply (proj2 (payload_same a2b _ _ Hp) (HN' t Ht) (HN u Hu)). }
    clear H2 H2'. setoid_rewrite <- Hx in K1. setoid_rewrite <- Hx in K2. rewrite <- Hn in K1.
    assert (g.2 = None <-> g'.2 = None) as HN.
    { rewrite G1, K1. split; intros (Q1&Q2&Q3&Q4); split_and!; try done; intros w [H|[H|H]]; apply Q4; auto; right; right; by apply (Hw Q3). }
    split; [exact HN|]. intros Hg Hg' v. rewrite (G2 Hg), (K2 Hg'). apply G1 in Hg as (_&_&Q3&_).
    split; intros (w&b&[H|[H|H]]&Hb&->); exists w, b; (split; [|done]); auto; right; right; by apply (Hw Q3).
  Qed.

  Lemma laid_learn {A : num} it order order' m m' is_spam (ob : obj A (gmap pyword winfo)) :
    parts_order_ok order -> parts_order_ok order' -> set_order_ok it -> count_all o = false ->
    seen (mine_received o) (part_headers m) = seen (mine_received o) (part_headers m') -> laid_out m m' -> o_bigrams ob = Some false ->
    let r := learn_gen mem_backend it (tokenize_message U E order o a2b m) is_spam ob in
    let r' := learn_gen mem_backend it (tokenize_message U E order' o a2b m') is_spam ob in
    same_training r.1 r'.1 /\ is_ok r.2 = is_ok r'.2.
  Proof. intros Ho Ho' Hit Hc Hs Ha Hb. apply words_learn; [done| |done]. by apply laid_tokens. Qed.

  Lemma laid_score {A : num} (HA : total_num A) it0 it order order' m m' hist :
    parts_order_ok order -> parts_order_ok order' -> set_order_ok it0 -> set_order_ok it -> count_all o = false ->
    seen (mine_received o) (part_headers m) = seen (mine_received o) (part_headers m') -> laid_out m m' ->
    let ob := fst (run mem_backend it0 hist (c_new false ∅ : obj A (gmap pyword winfo))) in
    same_result (score_gen mem_backend it (tokenize_message U E order o a2b m) ob).2
                (score_gen mem_backend it (tokenize_message U E order' o a2b m') ob).2.
  Proof. intros Ho Ho' H0 Hit Hc Hs Ha. apply (words_score HA it0 it); [done..|]. by apply laid_tokens. Qed.
End messages.

(** ** Wrapping a line at an unlucky place *)
Lemma wrapped_begin : ~ forall b b', Forall (fun c => c ∉ str "<&=:") b -> Forall (fun c => c ∉ str "<&=:") b' -> same_text b b' ->
  ((tokenize_payload b).2 = None <-> (tokenize_payload b').2 = None).
Proof.
  intros H. specialize (H (str "we begin 100 tests") (str "we
begin 100 tests")).
  destruct H as [H _].
  - apply (bool_decide_unpack _). by vm_compute.
  - apply (bool_decide_unpack _). by vm_compute.
  - exists (blower (str "we begin 100 tests")), (blower (str "we
begin 100 tests")). do 2 eexists. split_and!; [apply blower_spec..|apply words_of_spec|apply words_of_spec|]. intros w. by vm_compute.
  - specialize (H ltac:(by vm_compute)). by vm_compute in H.
Qed.
