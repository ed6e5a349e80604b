(** * Proofs about whole messages tokenized with options *)
From Coq Require Import String.
From Verif Require Import Py Regex RegexSpec RegexProofs StripModel StripSpec StripProofs MessageModel MessageSpec CdbModel
  NetModel NetSpec NetProofs TokenModel TokenSpec TokenProofs HeadModel HeadSpec HeadProofs HeadFieldProofs HeadScanProofs
  HeadCallProofs MailSpec MailProofs OptModel OptSpec OptHeadProofs OptBodyProofs.

(** ** Basic header tokens *)
Lemma no_blank_not_skipped k : 32%N ∉ k -> ~ skipped_name k.
Proof.
  intros Hk [y Hy]. apply Hk. assert (32%N ∈ lower k) as H by (rewrite Hy; apply elem_of_app; left; apply (bool_decide_unpack _); by vm_compute).
  unfold lower in H. apply elem_of_list_fmap in H as (c & Hc & H). unfold lower_char in Hc.
  destruct ((65 <=? c) && (c <=? 90))%N eqn:E; [|by subst]. apply andb_true_iff in E as [E1 E2]. apply N.leb_le in E1. lia.
Qed.
Lemma basic_raise U E only hb o parts h k v s ws w : (k, v) ∈ h -> ~ skipped_name k -> text_value v s ->
  runs (subject_word_char U) s ws -> w ∈ ws -> 12 < length w ->
  (tokenize_headers_with U E true only hb o parts h).2 <> None.
Proof.
  intros Hk HS Hv HR Hw Hl HE. rewrite headers_with_eq in HE.
  destruct (gapp _ _) as [ts e] eqn:EG. simpl in HE. subst e.
  apply gapp_none in EG as (t1 & r1 & _ & HX & _). apply gapp_none in HX as (t2 & t3 & H2 & _ & _).
  apply basic_iff in H2 as (tss & HF & _). apply elem_of_list_lookup in Hk as (i & Hi).
  destruct (Forall2_lookup_l _ _ _ _ _ HF Hi) as (t & _ & [[H _]|(_ & s' & ws' & H & HR' & HL & _)]); [done|].
  simpl in H. rewrite (text_value_det _ _ _ H Hv) in HR'. rewrite (runs_det _ _ _ _ HR' HR) in HL.
  rewrite Forall_forall in HL. apply HL in Hw. lia.
Qed.
Lemma basic_header_has U kv ts s ws w : ~ skipped_name kv.1 -> text_value kv.2 s -> runs (subject_word_char U) s ws -> w ∈ ws ->
  3 <= length w -> basic_header_list U kv ts -> WStr (lower kv.1 ++ str ":" ++ w) ∈ ts.
Proof.
  intros HS Hv HR Hw Hl [[H _]|(_ & s' & ws' & H & HR' & HL & ->)]; [done|].
  rewrite (text_value_det _ _ _ H Hv) in HR'. rewrite (runs_det _ _ _ _ HR' HR).
  apply elem_of_list_fmap. exists w. split; [done|]. by apply elem_of_list_filter.
Qed.
Lemma basic_word U E only hb o parts h ts k v s ws w : sane U -> no_none E ->
  tokenize_headers_with U E true only hb o parts h = (ts, None) ->
  (k, v) ∈ h -> ~ skipped_name k -> text_value v s -> runs (subject_word_char U) s ws -> w ∈ ws -> 3 <= length w ->
  WStr (lower k ++ str ":" ++ w) ∈ ts.
Proof.
  intros HU HN HT Hk HS Hv HR Hw Hl. apply headers_with_sound in HT as (t1 & t2 & t3 & _ & (tss & HF & ->) & _ & ->); [|done..].
  apply elem_of_app. right. apply elem_of_app. left. apply elem_of_list_lookup in Hk as (i & Hi).
  destruct (Forall2_lookup_l _ _ _ _ _ HF Hi) as (t & Ht & HB). apply elem_of_list_join. exists t. split; [|by eapply elem_of_list_lookup_2].
  by apply (basic_header_has U (k, v) t s ws w).
Qed.

(** ** Habeas headers *)
Lemma gapp_isnone2 g h : (gapp g h).2 = None <-> g.2 = None /\ h.2 = None.
Proof. destruct g as [ts [e|]], h as [ts' e']; simpl; naive_solver. Qed.
Lemma headers_split U E o parts h : tokenize_headers U E o parts h = gapp (gfor (crack_content_xyz U) parts) (tokenize_headers U E o [] h).
Proof.
  unfold tokenize_headers. f_equal. cbn [gfor]. change ([], None) with (gok []). rewrite gapp_ok. cbn [app]. by rewrite <- surjective_pairing.
Qed.
Lemma habeas_added U E only hb o parts h :
  ((tokenize_headers_with U E false only hb o parts h).2 = (tokenize_headers U E o parts h).2) /\
  forall ts, tokenize_headers_with U E false only hb o parts h = (ts, None) ->
    exists hts ts0, tokenize_headers U E o parts h = (ts0, None) /\ habeas_list hb h hts /\ ts ≡ₚ hts ++ ts0.
Proof.
  assert (exists hts, (match hb with None => gok [] | Some reduce => gok (habeas_tokens reduce h) end) = (hts, None)) as (hts & EH)
    by (destruct hb as [r|]; by eexists).
  rewrite headers_with_eq, (headers_split U E o parts h), EH. cbn [andb]. change (hts, None) with (gok hts). change (gok [] : gen) with (([], None) : gen).
  split.
  - destruct (gfor _ parts) as [t1 [e|]]; [done|]. destruct (tokenize_headers U E o [] h) as [t2 e2]. done.
  - intros ts HT. exists hts. destruct (gfor _ parts) as [t1 [e|]]; [done|]. destruct (tokenize_headers U E o [] h) as [t2 e2].
    simpl in HT. injection HT as <- ->. exists (t1 ++ t2). split_and!; [done|by apply habeas_iff|].
    rewrite !app_assoc. f_equiv. by rewrite (Permutation_app_comm t1).
Qed.

(** ** Octet streams and images *)
Lemma parts_default octets images p a2b : tokenize_part_with (with_parts octets images) a2b p = tokenize_part a2b p.
Proof.
  destruct p as [b| |raw]; [|done|done]. cbn [tokenize_part_with tokenize_part]. rewrite <- payload_default. done.
Qed.
Lemma body_parts octets images a2b ops ips texts :
  ((tokenize_body_with (with_parts octets images) a2b ops ips texts).2 = (tokenize_body a2b texts).2) /\
  forall ts, tokenize_body_with (with_parts octets images) a2b ops ips texts = (ts, None) <->
    exists ots its bts, octets_list octets ops ots /\ images_list images ips its /\ tokenize_body a2b texts = (bts, None) /\
      ts = ots ++ its ++ bts.
Proof.
  unfold tokenize_body_with, tokenize_body. cbn [check_octets image_size with_parts].
  rewrite (gfor_ext _ (tokenize_part a2b) texts (fun p => parts_default octets images p a2b)). split.
  - assert (exists ots, (if octets then gfor (fun p => gok (octet_tokens p)) ops else gok []) = (ots, None)) as (ots & ->).
    { destruct octets; [|by eexists]. clear. induction ops as [|p ops (ots & IH)]; [by eexists|]. cbn [gfor]. rewrite IH. by eexists. }
    assert (exists its, (if images then gok (images_tokens ips) else gok []) = (its, None)) as (its & ->) by (destruct images; by eexists).
    by destruct (gfor _ texts) as [ts [e|]].
  - intros ts. split.
    + intros H. apply gapp_none in H as (ots & r & H1 & H & ->). apply gapp_none in H as (its & bts & H2 & H3 & ->).
      apply octets_iff in H1. apply images_iff in H2. by exists ots, its, bts.
    + intros (ots & its & bts & H1 & H2 & H3 & ->). apply octets_iff in H1. apply images_iff in H2. by rewrite H1, H2, H3.
Qed.

(** ** Text parts *)
Lemma nonascii_raises o a2b octets images texts b : replace_nonascii o = true -> PBytes b ∈ texts ->
  (tokenize_body_with o a2b octets images texts).2 <> None.
Proof.
  intros HO Hb HE. destruct (tokenize_body_with o a2b octets images texts) as [ts e] eqn:EB. simpl in HE. subst e.
  apply body_with_iff in EB as (_ & _ & _ & _ & _ & HF & _). rewrite Forall_forall in HF. apply (HF _ Hb). cbn [part_raises_with].
  intros [H _]. congruence.
Qed.
Lemma part_in_body_raises o a2b octets images texts b : ~ tokenizable_with o b -> PBytes b ∈ texts ->
  (tokenize_body_with o a2b octets images texts).2 <> None.
Proof.
  intros HO Hb HE. destruct (tokenize_body_with o a2b octets images texts) as [ts e] eqn:EB. simpl in HE. subst e.
  apply body_with_iff in EB as (_ & _ & _ & _ & _ & HF & _). rewrite Forall_forall in HF. by apply (HF _ Hb).
Qed.
Lemma url_raises o b t t1 urls w : Forall2 lower_of b t -> stripped (url_begin o) at_once [] t t1 urls -> w ∈ urls ->
  pick_apart o = true \/ bare_url w -> ~ tokenizable_with o b.
Proof.
  intros HL HS Hw HO (_ & t0 & t' & urls' & ws & HL' & (t1' & t2 & t3 & s2 & s3 & s4 & HS' & _) & _ & _ & _ & HF & _).
  rewrite (lower_unique _ _ HL') in HS'. rewrite (lower_unique _ _ HL) in HS.
  destruct (stripped_det _ _ (url_begin_functional o) at_once_functional _ _ _ _ _ _ HS HS') as [_ <-].
  rewrite Forall_forall in HF. apply HF in Hw as [H1 H2]. destruct HO; [congruence|done].
Qed.
(** Only a single URL need be looked at to know that picking apart raises. *)
Lemma url_met o s x w y : s = x ++ w ++ y -> url_begin o x w y -> forall t1 urls, stripped (url_begin o) at_once [] s t1 urls -> urls <> [].
Proof.
  intros Es HU t1 urls HS. inversion HS; subst; try done. exfalso.
  match goal with H : nowhere _ _ _ |- _ => by apply (H x w y eq_refl) end.
Qed.
Lemma pick_apart_raises o b : pick_apart o = true -> (exists t, Forall2 lower_of b t /\ occurs (url_begin o) t) -> ~ tokenizable_with o b.
Proof.
  intros HO (t & HL & x & w & y & Es & HU) HT.
  assert (exists t1 urls, stripped (url_begin o) at_once [] t t1 urls) as (t1 & urls & HS).
  { destruct (url_with_strip o t) as (t1 & urls & HS & _). by exists t1, urls. }
  pose proof (url_met o t x w y Es HU t1 urls HS) as Hne. destruct urls as [|u urls]; [done|].
  by apply (url_raises o b t t1 (u :: urls) u HL HS); [left|left|].
Qed.

(** ** Whole messages *)
Lemma call_with_sound U E basic only hb o b a2b parts h octets images texts vs : sane U -> no_none E ->
  tokenizer_call_with U E basic only hb o b a2b parts h octets images texts = (vs, None) ->
  exists bs, vs = WBytes <$> bs /\ message_list_with U E hb o b parts h octets images texts bs.
Proof.
  intros HU HN HC. unfold tokenizer_call_with in HC.
  destruct (gapp _ _) as [ts e] eqn:EG. apply convert_inv in HC as (-> & bs & -> & HF). exists bs. split; [done|].
  apply gapp_none in EG as (hts & bts & H1 & H2 & ->). apply headers_with_sound in H1; [|done..].
  apply body_with_iff in H2 as (ots & its & tss & H3 & H4 & H5 & H6 & ->). by exists hts, ots, its, tss.
Qed.
Lemma call_with_complete U E basic only hb o b a2b parts h octets images texts bs : sane U -> no_none E ->
  message_list_with U E hb o b parts h octets images texts bs ->
  exists bs', tokenizer_call_with U E basic only hb o b a2b parts h octets images texts = (WBytes <$> bs', None) /\ bs ≡ₚ bs'.
Proof.
  intros HU HN (hts & ots & its & tss & H1 & H2 & H3 & H4 & H5 & H6).
  destruct (headers_with_complete U E false false hb o parts h hts HU HN H1) as (hts' & HH & HP).
  assert (tokenize_body_with b a2b octets images texts = (ots ++ its ++ mjoin tss, None)) as HB
    by (apply body_with_iff; by exists ots, its, tss).
  destruct (Forall2_permute encoded _ (hts' ++ ots ++ its ++ mjoin tss) _ (Permutation_app HP (Permutation_refl _)) H6) as (bs' & HP' & HF).
  exists bs'. split; [|done]. unfold tokenizer_call_with. rewrite HH, HB. by apply convert_ok.
Qed.
Lemma call_with_iff U E basic only hb o b a2b parts h octets images texts : sane U -> no_none E ->
  (tokenizer_call_with U E basic only hb o b a2b parts h octets images texts).2 = None <->
  exists bs, message_list_with U E hb o b parts h octets images texts bs.
Proof.
  intros HU HN. split.
  - destruct (tokenizer_call_with U E basic only hb o b a2b parts h octets images texts) as [vs e] eqn:EC. intros HE. simpl in HE. subst e.
    destruct (call_with_sound _ _ _ _ _ _ _ _ _ _ _ _ _ _ HU HN EC) as (bs & _ & H). by exists bs.
  - intros (bs & H). destruct (call_with_complete U E basic only hb o b a2b parts h octets images texts bs HU HN H) as (bs' & -> & _). done.
Qed.
Lemma message_list_with_det U E hb o b parts h octets images texts bs bs' : sane U -> no_none E ->
  message_list_with U E hb o b parts h octets images texts bs -> message_list_with U E hb o b parts h octets images texts bs' -> bs ≡ₚ bs'.
Proof.
  intros HU HN H H'.
  destruct (call_with_complete U E false false hb o b (fun _ => Err ValueError) parts h octets images texts bs HU HN H) as (b1 & E1 & ->).
  destruct (call_with_complete U E false false hb o b (fun _ => Err ValueError) parts h octets images texts bs' HU HN H') as (b2 & E2 & ->).
  rewrite E1 in E2. injection E2 as E2.
  assert (Inj (=) (=) WBytes) as HI by by intros x y [=].
  revert b2 E2. clear -HI. intros b2 E2. by apply (inj (fmap (M := list) WBytes)) in E2 as ->.
Qed.
Lemma call_default U E basic only o a2b parts h octets images texts :
  tokenizer_call_with U E basic only None o default_bopts a2b parts h octets images texts =
  tokenizer_call U E basic only o a2b parts h texts.
Proof. unfold tokenizer_call_with, tokenizer_call. by rewrite headers_with_default, body_default. Qed.
Lemma arguments_ignored U E basic only hb o b a2b parts h octets images texts :
  tokenizer_call_with U E basic only hb o b a2b parts h octets images texts =
  tokenizer_call_with U E false false hb o b a2b parts h octets images texts.
Proof. done. Qed.

(** ** One option at a time *)
Lemma tokenizable_shorts b : tokenizable_with with_shorts b <-> tokenizable b.
Proof.
  split.
  - intros (_ & t & t' & urls & ws & H1 & H2 & H3 & H4 & H5 & _ & H6 & H7 & H8). by exists t, t', urls, ws.
  - intros (t & t' & urls & ws & H1 & H2 & H3 & H4 & H5 & H6 & H7 & H8). split; [done|]. exists t, t', urls, ws. split_and!; try done.
    destruct H2 as (t1 & t2 & t3 & s2 & s3 & s4 & H2 & _). clear -H2.
    assert (forall x s k w y, leftmost url_here x s k w y -> url_fine with_shorts w) as HX.
    { intros x s k w y (_ & [(p & g & H) _] & _). split; [done|]. by eapply is_url_not_bare. }
    induction H2 as [|x s k w y HL HN|x s k w y k' e z kept ws HL HL' _ IH]; [constructor|apply Forall_singleton; by eapply HX|].
    constructor; [by eapply HX|done].
Qed.
Lemma shorts_added a2b b ts : tokenize_part_with with_shorts a2b (PBytes b) = (ts, None) <->
  tokenizable b /\ exists t t' urls ws ts0 sts, Forall2 lower_of b t /\ left_over t t' urls /\ words t' ws /\
    tokenize_part a2b (PBytes b) = (ts0, None) /\ short_list true ws sts /\ ts = ts0 ++ sts.
Proof.
  cbn [tokenize_part_with tokenize_part]. rewrite <- tokenizable_shorts. split.
  - intros H. destruct (payload_with_cases with_shorts b) as [(ts' & H1 & H2 & H3)|[H1 _]]; [|by rewrite H in H1].
    rewrite H in H1. injection H1 as <-. split; [done|]. apply tokenizable_shorts in H3.
    destruct H2 as (t & t' & urls & ws & clues & tss & wss & sts & K1 & K2 & K3 & K4 & K5 & K6 & K7 & ->).
    destruct (proj1 (payload_outcome b) H3) as (ts0 & E & HB). exists t, t', urls, ws, ts0, sts. split_and!; try done.
    assert (body_tokens b (((fun w => WStr (str "virus:" ++ repr_bytes w)) <$> clues) ++ mjoin tss ++ mjoin wss)) as HB'
      by by exists t, t', urls, ws, clues, tss, wss.
    rewrite (body_tokens_det _ _ _ HB HB'). by rewrite <- !app_assoc.
  - intros (H3 & t & t' & urls & ws & ts0 & sts & K1 & K2 & K3 & E & K7 & ->).
    destruct (payload_with_cases with_shorts b) as [(ts' & H1 & H2 & _)|[_ H1]]; [|done]. rewrite H1. f_equal.
    apply tokenizable_shorts in H3. destruct (proj1 (payload_outcome b) H3) as (ts0' & E' & HB). rewrite E in E'. injection E' as <-.
    apply (body_tokens_with_det with_shorts b); [done|].
    destruct HB as (s & s' & urls' & ws' & clues & tss & wss & L1 & L2 & L3 & L4 & L5 & L6 & ->).
    apply lower_unique in K1 as ->. apply lower_unique in L1 as ->. destruct (left_over_det _ _ _ _ _ K2 L2) as [<- <-].
    apply words_unique in K3 as ->. apply words_unique in L3 as ->.
    exists (blower b), t', urls, (words_of t'), clues, tss, wss, sts. split_and!; try done.
    + apply blower_spec.
    + apply words_of_spec.
    + by rewrite <- !app_assoc.
Qed.
Lemma shorts_raise a2b b : (tokenize_part_with with_shorts a2b (PBytes b)).2 = None <-> (tokenize_part a2b (PBytes b)).2 = None.
Proof.
  cbn [tokenize_part_with tokenize_part].
  destruct (payload_with_cases with_shorts b) as [(ts & -> & _ & H)|[H1 H2]], (payload_cases b) as [(ts' & -> & _ & H')|[H1' H2']];
    rewrite tokenizable_shorts in *; try done. by rewrite H1, H1'.
Qed.
