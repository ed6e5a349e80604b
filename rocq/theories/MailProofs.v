(** * Proofs about whole messages *)
From Coq Require Import String.
From Verif Require Import Py Regex RegexSpec RegexProofs StripModel StripSpec StripProofs MessageModel MessageSpec CdbModel
  NetModel NetSpec NetProofs TokenModel TokenSpec TokenProofs HeadModel HeadSpec HeadProofs HeadFieldProofs HeadScanProofs
  HeadCallProofs MailSpec.

Lemma gfor_iff {X} (f : X -> gen) (R : X -> list pyword -> Prop) xs ts :
  (forall x t, x ∈ xs -> f x = (t, None) <-> R x t) ->
  gfor f xs = (ts, None) <-> exists tss, Forall2 R xs tss /\ ts = mjoin tss.
Proof.
  revert ts. induction xs as [|x xs IH]; intros ts H; cbn [gfor].
  - split.
    + intros [= <-]. exists []. split; [constructor|done].
    + intros (tss & HF & ->). inversion HF. done.
  - rewrite gapp_none. split.
    + intros (a & b & H1 & H2 & ->). apply H in H1; [|left]. apply IH in H2 as (tss & HF & ->).
      * exists (a :: tss). split; [by constructor|done].
      * intros y t Hy. apply H. by right.
    + intros (tss & HF & ->). inversion HF as [|? a ? tss' Ha HF']; subst. exists a, (mjoin tss'). split_and!.
      * apply H; [left|done].
      * apply IH; [intros y t Hy; apply H; by right|]. by exists tss'.
      * done.
Qed.

Lemma values_det name h vs vs' : values name h vs -> values name h vs' -> vs = vs'.
Proof.
  intros H. revert vs'. induction H; intros vs' H'; inversion H'; subst; try done.
  - f_equal. auto.
  - auto.
Qed.

(** ** Parts *)
Lemma parts_iff U parts ts : gfor (crack_content_xyz U) parts = (ts, None) <-> part_list U parts ts.
Proof.
  rewrite (gfor_iff _ (fun x t => part_fine x /\ t = part_token_list U x)).
  - unfold part_list. split.
    + intros (tss & HF & ->). split.
      * apply Forall_forall. intros x Hx. apply elem_of_list_lookup in Hx as [i Hi].
        destruct (Forall2_lookup_l _ _ _ _ _ HF Hi) as (t & _ & H & _). done.
      * f_equal. induction HF as [|x t xs tss [_ ->] _ IH]; [done|]. csimpl. by rewrite IH.
    + intros [HF ->]. exists (part_token_list U <$> parts). split; [|done].
      induction HF; csimpl; by constructor.
  - intros x t _. split.
    + intros HC. assert (part_fine x) as HP.
      { split.
        - intros HP. pose proof (part_err U x (or_introl HP)) as H. by rewrite HC in H.
        - intros s HP. pose proof (part_err U x (or_intror (ex_intro _ s HP))) as H. by rewrite HC in H. }
      split; [done|]. destruct HP as [H1 H2]. rewrite (part_ok U x H1 H2) in HC. by injection HC.
    + intros [[H1 H2] ->]. by apply part_ok.
Qed.

(** ** Subject *)
Lemma pieces_no_none E x chunks : no_none E -> subject_pieces E x chunks -> Forall (fun xc => xc.1 <> WNone) chunks.
Proof. intros HN [H|(s & _ & _ & ->)]; [by eapply HN|by repeat constructor]. Qed.

Lemma subject_iff U E h ts : no_none E -> subject_tokens U E h = (ts, None) <-> subject_list U E h ts.
Proof.
  intros HN. set (x := hget_default h (str "subject") (FText [])).
  assert (header_or h (str "subject") (FText []) x) as Hx by by apply (hget_default_or _ (str "subject")).
  split.
  - intros HS.
    assert (exists chunks, subject_pieces E x chunks) as (chunks & HP).
    { destruct (decode_header E x) as [chunks|e] eqn:ED; [exists chunks; by left|].
      destruct (decide (e = ValueError)) as [->|He].
      - destruct x as [|s|s] eqn:Ex; [|by eexists; right; exists s|].
        + exfalso. unfold subject_tokens, decoded in HS. fold x in HS. rewrite Ex, ED in HS. done.
        + exfalso. unfold subject_tokens, decoded in HS. fold x in HS. rewrite Ex, ED in HS. done.
      - rewrite (subject_raises U E h x e Hx ED He) in HS. done. }
    destruct (subject_outcome U E h x chunks Hx HP (pieces_no_none E x chunks HN HP)) as [H1 H2].
    assert (forall xc, Decision (bad_chunk U xc)) as HD by (intros xc; exact (chunk_dec U xc)).
    destruct (decide (Exists (bad_chunk U) chunks)) as [HB|HB].
    + rewrite HS in H2. by specialize (H2 HB).
    + destruct (H1 HB) as (tss & HS' & HF). rewrite HS in HS'. injection HS' as ->. by exists x, chunks, tss.
  - intros (x' & chunks & tss & Hx' & HP & HB & HF & ->).
    destruct (subject_outcome U E h x' chunks Hx' HP (pieces_no_none E x' chunks HN HP)) as [H1 _].
    destruct (H1 HB) as (tss' & -> & HF'). by rewrite (Forall2_det _ _ _ _ (chunk_tokens_det U) HF HF').
Qed.

(** ** Address headers *)
Lemma name_tokens_det U field nc ts ts' : name_tokens U field nc ts -> name_tokens U field nc ts' -> ts = ts'.
Proof.
  intros (n & -> & H) (n' & -> & H'). destruct (nc.1) as [s|b|]; [by subst| |done].
  destruct H as (b1 & H1 & ->), H' as (b2 & H2 & ->). apply lower_unique in H1 as ->. apply lower_unique in H2 as ->. done.
Qed.
Lemma one_address_det U field ps a ts ts' : one_address U field ps a ts -> one_address U field ps a ts' -> ts = ts'.
Proof.
  intros (nts & ats & H1 & -> & H2) (nts' & ats' & H1' & -> & H2').
  rewrite (Forall2_det _ _ _ _ (name_tokens_det U field) H1 H1'). f_equal.
  destruct H2 as [[E ->]|[E (ws & HC & ->)]], H2' as [[E' ->]|[E' (ws' & HC' & ->)]]; try done.
  apply cut_split in HC as ->. apply cut_split in HC' as ->. done.
Qed.
Lemma pieces_exist E na t U field : address_tokens U E field na = (t, None) -> exists ps, name_pieces E na ps.
Proof.
  destruct na as [name addr]. unfold address_tokens, name_pieces. destruct name as [|c name]; [intros _; exists []; by left|].
  unfold decoded. cbn [fst]. destruct (decode_header E (FText (c :: name))) as [ps|e] eqn:ED.
  - intros _. exists ps. right. split; [done|by left].
  - destruct e; try done. intros _. eexists. right. split; [done|by right].
Qed.
Lemma name_pieces_no_none E na ps : no_none E -> name_pieces E na ps -> Forall (fun nc => nc.1 <> WNone) ps.
Proof. intros HN [[_ ->]|[_ [H|[_ ->]]]]; [constructor|by eapply HN|by repeat constructor]. Qed.

Lemma field_iff U E h field ts : lower field = field -> no_none E ->
  field_tokens U E h field = (ts, None) <-> field_list U E h field ts.
Proof.
  intros Hl HN. destruct (values_exist field h) as (vs & Hv). split.
  - intros HS. destruct (decide (length vs = 0)) as [H0|H0].
    { apply nil_length_inv in H0 as ->. rewrite (field_absent U E h field Hl Hv) in HS. injection HS as <-. by left. }
    assert (vs <> []) as Hne by (by intros ->). right.
    destruct (getaddresses E (fetch <$> vs)) as [addrs|e] eqn:EG;
      [|rewrite (field_raises U E h field vs e Hl Hv Hne EG) in HS; done].
    assert (exists pss, Forall2 (name_pieces E) addrs pss) as (pss & HP).
    { pose proof HS as HS'. unfold field_tokens in HS'. rewrite (hget_all_values h field vs Hl Hv) in HS'.
      destruct vs as [|v vs]; [done|]. csimpl in *. rewrite EG in HS'. apply gapp_none in HS' as (a & b & HS' & _ & _).
      apply (gfor_iff _ (fun na t => address_tokens U E field na = (t, None))) in HS' as (tss & HF & _); [|done].
      clear -HF. induction HF as [|na t addrs tss Hna _ (pss & IH)]; [exists []; constructor|].
      destruct (pieces_exist _ _ _ _ _ Hna) as (ps & Hps). exists (ps :: pss). by constructor. }
    assert (Forall (Forall (fun nc => nc.1 <> WNone)) pss) as HNN.
    { clear -HP HN. induction HP; constructor; [by eapply name_pieces_no_none|done]. }
    destruct (field_ok U E h field vs addrs pss Hl Hv Hne EG HP HNN) as (tss & nts & HS' & HF & H1 & H2).
    rewrite HS in HS'. injection HS' as ->. exists vs, addrs, pss, tss, nts. split_and!; try done.
    destruct (decide (nameless addrs = 0)) as [E0|E0]; [left|right]; [by auto|]. split; [lia|]. apply H2. lia.
  - intros [[Hv' ->]|(vs' & addrs & pss & tss & nts & Hv' & Hne & EG & HP & HF & HK & ->)]; [by apply field_absent|].
    assert (Forall (Forall (fun nc => nc.1 <> WNone)) pss) as HNN.
    { clear -HP HN. induction HP; constructor; [by eapply name_pieces_no_none|done]. }
    destruct (field_ok U E h field vs' addrs pss Hl Hv' Hne EG HP HNN) as (tss' & nts' & -> & HF' & H1 & H2).
    f_equal. f_equal.
    + f_equal. eapply Forall2_det; [|exact HF'|exact HF]. intros x y y'. apply one_address_det.
    + destruct HK as [[H0 ->]|[H0 (k & Hk & ->)]]; [by apply H1|]. destruct (H2 H0) as (k' & Hk' & ->).
      by rewrite (nearest_log2_unique _ _ _ Hk Hk').
Qed.

(** ** Summaries *)
Lemma summary_iff U E h p s ts : summary_tokens U E h p s = (ts, None) <-> exists t1 t2,
  summary_list E h (u_lower U) (str "pfxlen:") 3 p t1 /\  summary_list E h (fun a => u_lower U (reverse a)) (str "sfxlen:") 5 s t2 /\ ts = t1 ++ t2.
Proof.
  destruct (values_exist (str "to") h) as (vt & Ht), (values_exist (str "cc") h) as (vc & Hc).
  assert (forall (view : codes -> codes) (tag : codes) (limit : nat) (wanted : bool) (t : list pyword),
    (if wanted then match getaddresses E (hget_all h (str "to") ++ hget_all h (str "cc")) with
       | Err e => gerr e | Ok addrs => gok (affix_tokens tag limit ((fun na : codes * codes => view na.2) <$> addrs)) end else gok []) = (t, None)
    <-> summary_list E h view tag limit wanted t) as H.
  { intros view tag limit wanted t. rewrite (hget_all_values h _ vt eq_refl Ht), (hget_all_values h _ vc eq_refl Hc), <- fmap_app.
    unfold summary_list. destruct wanted.
    - split.
      + intros HS. right. split; [done|]. destruct (getaddresses E (fetch <$> vt ++ vc)) as [addrs|e] eqn:EG; [|done].
        injection HS as <-. exists vt, vc, addrs. split_and!; [done..|apply affix_spec].
      + intros [[? _]|(_ & vt' & vc' & addrs & Ht' & Hc' & EG & HA)]; [done|].
        rewrite (values_det _ _ _ _ Ht Ht'), (values_det _ _ _ _ Hc Hc'), EG. unfold gok. f_equal.
        by apply (affix_det tag limit _ _ _ _ (Permutation_refl _) (affix_spec tag limit _)).
    - split; [intros [= <-]; by left|]. intros [[_ ->]|[? _]]; done. }
  unfold summary_tokens. rewrite gapp_none. split.
  - intros (a & b & H1 & H2 & ->). exists a, b. split_and!; [by apply H..|done].
  - intros (a & b & H1 & H2 & ->). exists a, b. split_and!; [by apply H in H1|by apply H in H2|done].
Qed.

(** ** Recipients and X-Mailer *)
Lemma texts_or vs : (exists ss, Forall2 text_value vs ss) \/ Exists (fun v => forall s, ~ text_value v s) vs.
Proof.
  induction vs as [|v vs IH]; [left; exists []; constructor|].
  destruct (fetch v) as [|s|s] eqn:Ev.
  - right. left. intros s H. apply fetch_text in H. congruence.
  - destruct IH as [(ss & IH)|IH]; [left|right; by right]. exists (s :: ss). constructor; [by apply fetch_text_inv|done].
  - right. left. intros s' H. apply fetch_text in H. congruence.
Qed.
Lemma text_value_det v s s' : text_value v s -> text_value v s' -> s = s'.
Proof. intros [-> _] [[= ->] _]. done. Qed.

Lemma recipient_iff h field ts : lower field = field -> recipient_tokens h field = (ts, None) <-> recipient_list h field ts.
Proof.
  intros Hl. destruct (values_exist field h) as (vs & Hv). split.
  - intros HS. destruct (texts_or vs) as [(ss & HT)|HT].
    + exists vs, ss. split_and!; [done..|]. destruct (recipient_ok h field vs ss Hl Hv HT) as [H1 H2].
      destruct ss as [|s ss].
      * rewrite H1 in HS by done. injection HS as <-. by left.
      * destruct (H2 ltac:(done)) as (k & Hk & HS'). rewrite HS in HS'. injection HS' as ->. right. split; [done|]. by exists k.
    + rewrite (recipient_err h field vs Hl Hv HT) in HS. done.
  - intros (vs' & ss & Hv' & HT & HK). destruct (recipient_ok h field vs' ss Hl Hv' HT) as [H1 H2].
    destruct HK as [[E ->]|[E (k & Hk & ->)]]; [by apply H1|]. destruct (H2 E) as (k' & Hk' & ->).
    by rewrite (nearest_log2_unique _ _ _ Hk Hk').
Qed.

Lemma mailer_iff U h ts : mailer_tokens U h = (ts, None) <-> mailer_list U h ts.
Proof.
  set (x := hget_default h (str "x-mailer") (FText (str "none"))).
  assert (header_or h (str "x-mailer") (FText (str "none")) x) as Hx by by apply (hget_default_or _ (str "x-mailer")).
  split.
  - intros HS. destruct x as [|s|s] eqn:Ex; [rewrite (mailer_err U h FNone Hx) in HS by done; done| |rewrite (mailer_err U h (FHeader s) Hx) in HS by done; done].
    destruct (mailer_ok U h s Hx) as (t & Ht & HS'). rewrite HS in HS'. injection HS' as ->. by exists s, t.
  - intros (s & t & Hx' & Ht & ->). destruct (mailer_ok U h s Hx') as (t' & Ht' & ->).
    destruct Ht as (ws & H1 & ->), Ht' as (ws' & H1' & ->). by rewrite (runs_det _ _ _ _ H1 H1').
Qed.

(** ** Received headers *)
Lemma received_iff U h (wanted : bool) ts : sane U ->
  (if wanted then gfor (received_tokens U) (hget_all h (str "received")) else gok []) = (ts, None) <-> received_headers U h wanted ts.
Proof.
  intros HU. unfold received_headers. destruct wanted.
  - destruct (values_exist (str "received") h) as (vs & Hv). rewrite (hget_all_values h _ vs eq_refl Hv). split.
    + intros HS. right. split; [done|]. exists vs.
      assert (exists (ss : list codes) (ls : list (list codes)), Forall2 text_value vs ss /\ Forall2 (received_list U) ss ls /\        ts = (fun t => WStr (str "received:" ++ t)) <$> mjoin ls) as (ss & ls & H1 & H2 & H3); [|by exists ss, ls].
      clear Hv. revert ts HS. induction vs as [|v vs IH]; intros ts HS; csimpl in HS.
      { injection HS as <-. exists [], []. split_and!; [constructor..|done]. }
      cbn [gfor] in HS. apply gapp_none in HS as (a & b & H1 & H2 & ->). apply IH in H2 as (ss & ls & K1 & K2 & ->).
      destruct (texts_or [v]) as [(ss' & HT)|HT].
      * inversion HT as [|? s ? ? HT1 HT2]; subst. inversion HT2; subst.
        destruct (received_ok U v s HT1) as (l & E1 & E2). rewrite H1 in E1. injection E1 as ->.
        exists (s :: ss), (l :: ls). split_and!; [by constructor..|]. change (mjoin (l :: ls)) with (l ++ mjoin ls). by rewrite fmap_app.
      * inversion HT as [? ? HT1|? ? HT1]; subst; [|by inversion HT1]. rewrite (received_err U v HT1) in H1. done.
    + intros [[? _]|(_ & vs' & ss & ls & Hv' & HT & HR & ->)]; [done|]. rewrite <- (values_det _ _ _ _ Hv Hv') in HT. clear -HU HT HR.
      revert ls HR. induction HT as [|v s vs ss Hs _ IH]; intros ls HR; inversion HR as [|? l ? ls' Hl HR']; subst; [done|].
      csimpl. cbn [gfor]. rewrite (IH _ HR'). destruct (received_ok U v s Hs) as (l' & -> & Hl').
      rewrite (received_list_det U s _ _ HU Hl Hl'). simpl. by rewrite fmap_app.
  - split; [intros [= <-]; by left|]. intros [[_ ->]|[? _]]; done.
Qed.

(** ** Message ids *)
Lemma id_host_dec U s : (exists host, id_host U s host) \/ forall host, ~ id_host U s host.
Proof.
  destruct (rmatch1 (message_id_re U) (at_ [] s)) as [[d g]|] eqn:E.
  - left. eexists. by apply id_group in E.
  - right. intros host Hi. destruct (id_matches U s host Hi) as (w & y & Es & M1). exact (proj1 (rmatch1_none _ _ _) E w y Es M1).
Qed.
Lemma id_iff U h ts : sane U -> message_id_tokens U h = (ts, None) <-> id_list U h ts.
Proof.
  intros HU. set (x := hget_default h (str "message-id") (FText [])).
  assert (header_or h (str "message-id") (FText []) x) as Hx by by apply (hget_default_or _ (str "message-id")).
  split.
  - intros HS. destruct x as [|s|s] eqn:Ex; [rewrite (message_id_err U h FNone Hx) in HS by done; done| |rewrite (message_id_err U h (FHeader s) Hx) in HS by done; done].
    exists s. split; [done|].
    assert ((exists host, id_host U s host) \/ forall host, ~ id_host U s host) as [(host & HH)|HH].
    { exact (id_host_dec U s). }
    + left. exists host. split; [done|]. rewrite (message_id_ok U h s host HU Hx HH) in HS. by injection HS.
    + right. split; [done|]. rewrite (message_id_invalid U h s Hx HH) in HS. by injection HS.
  - intros (s & Hx' & [(host & HH & ->)|[HH ->]]); [by apply (message_id_ok U h s)|by apply (message_id_invalid U h s)].
Qed.

(** ** All headers *)
Lemma count_tokens_list o h : count_list o h (count_tokens o h).
Proof. split; [apply count_nodup|apply count_elem]. Qed.
Lemma count_list_perm o h ts : count_list o h ts -> ts ≡ₚ count_tokens o h.
Proof. intros [H1 H2]. apply NoDup_Permutation; [done|apply count_nodup|]. intros t. by rewrite H2, count_elem. Qed.

Lemma fields_iff U E h ts : no_none E ->
  gfor (field_tokens U E h) address_names = (ts, None) <-> exists tss, Forall2 (field_list U E h) address_names tss /\ ts = mjoin tss.
Proof.
  intros HN. apply gfor_iff. intros x t Hx. apply field_iff; [|done].
  assert (Forall (fun x => lower x = x) address_names) as HF by by repeat constructor.
  by apply (proj1 (Forall_forall _ _) HF).
Qed.
Lemma recipients_iff h ts :
  gfor (recipient_tokens h) [str "to"; str "cc"] = (ts, None) <-> exists tss, Forall2 (recipient_list h) [str "to"; str "cc"] tss /\ ts = mjoin tss.
Proof.
  apply gfor_iff. intros x t Hx. apply recipient_iff.
  assert (Forall (fun x => lower x = x) [str "to"; str "cc"]) as HF by by repeat constructor.
  by apply (proj1 (Forall_forall _ _) HF).
Qed.

Lemma headers_sound U E o parts h ts : sane U -> no_none E ->
  tokenize_headers U E o parts h = (ts, None) -> header_list U E o parts h ts.
Proof.
  intros HU HN HS. unfold tokenize_headers in HS. change ADDRESS_HEADERS with address_names in HS.
  apply gapp_none in HS as (t1 & r1 & H1 & HS & ->). apply gapp_none in HS as (t2 & r2 & H2 & HS & ->).
  apply gapp_none in HS as (t3 & r3 & H3 & HS & ->). apply gapp_none in HS as (t4 & r4 & H4 & HS & ->).
  apply gapp_none in HS as (t5 & r5 & H5 & HS & ->). apply gapp_none in HS as (t6 & r6 & H6 & HS & ->).
  apply gapp_none in HS as (t7 & r7 & H7 & HS & ->). apply gapp_none in HS as (t8 & r8 & H8 & HS & ->).
  injection HS as <-. apply summary_iff in H4 as (t4a & t4b & H4a & H4b & ->).
  exists t1, t2, t3, t4a, t4b, t5, t6, t7, t8, (count_tokens o h). split_and!.
  - by apply parts_iff.
  - by apply subject_iff.
  - by apply fields_iff.
  - done.
  - done.
  - by apply recipients_iff.
  - by apply mailer_iff.
  - by apply received_iff.
  - by apply id_iff.
  - apply count_tokens_list.
  - by rewrite <- !app_assoc.
Qed.

Lemma headers_complete U E o parts h ts : sane U -> no_none E -> header_list U E o parts h ts ->
  exists ts', tokenize_headers U E o parts h = (ts', None) /\ ts ≡ₚ ts'.
Proof.
  intros HU HN (t1 & t2 & t3 & t4 & t5 & t6 & t7 & t8 & t9 & t10 & H1 & H2 & H3 & H4 & H5 & H6 & H7 & H8 & H9 & H10 & ->).
  eexists. split.
  - apply headers_ok.
    + by apply parts_iff in H1.
    + apply subject_iff in H2; [exact H2|done].
    + apply fields_iff in H3; [exact H3|done].
    + apply summary_iff. exists t4, t5. done.
    + apply recipients_iff in H6. exact H6.
    + apply mailer_iff in H7. exact H7.
    + apply received_iff in H8; [exact H8|done].
    + apply id_iff in H9; [exact H9|done].
  - rewrite <- !app_assoc. do 9 f_equiv. by apply count_list_perm.
Qed.

(** ** Whole messages *)
Lemma convert_inv ws vs e : convert_to_bytes ws e = (vs, None) -> e = None /\ exists bs, vs = WBytes <$> bs /\ Forall2 encoded ws bs.
Proof.
  revert vs. induction ws as [|w ws IH]; intros vs H; cbn [convert_to_bytes] in H.
  - injection H as <- ->. split; [done|]. exists []. split; [done|constructor].
  - destruct w as [s|b|]; [destruct (utf8 s) as [b|x] eqn:Es| |]; try done;
      apply gapp_none in H as (a & r & [= <-] & H & ->); apply IH in H as (-> & bs & -> & HF); (split; [done|]); exists (b :: bs);
      (split; [done|]); constructor; try done; [left; by exists s|by right].
Qed.

Lemma call_sound U E basic only o a2b parts h texts vs : sane U -> no_none E ->
  tokenizer_call U E basic only o a2b parts h texts = (vs, None) ->
  exists bs, vs = WBytes <$> bs /\ message_list U E o parts h texts bs.
Proof.
  intros HU HN HC. unfold tokenizer_call in HC.
  destruct (gapp (tokenize_headers U E o parts h) (tokenize_body a2b texts)) as [ts e] eqn:EG.
  apply convert_inv in HC as (-> & bs & -> & HF). exists bs. split; [done|].
  apply gapp_none in EG as (hts & bts & H1 & H2 & ->). apply headers_sound in H1; [|done..].
  destruct (body_outcome a2b texts) as [HB1 HB2].
  assert (~ Exists part_raises texts) as HE by (intros HE; apply HB2 in HE; by rewrite H2 in HE).
  destruct (HB1 HE) as (tss & HT & HT'). rewrite H2 in HT. injection HT as ->. exists hts, tss. split_and!; try done.
  apply Forall_forall. intros p Hp Hr. apply HE, Exists_exists. by exists p.
Qed.
Lemma call_complete U E basic only o a2b parts h texts bs : sane U -> no_none E -> message_list U E o parts h texts bs ->
  exists bs', tokenizer_call U E basic only o a2b parts h texts = (WBytes <$> bs', None) /\ bs ≡ₚ bs'.
Proof.
  intros HU HN (hts & tss & H1 & H2 & H3 & H4).
  destruct (headers_complete U E o parts h hts HU HN H1) as (hts' & HH & HP).
  destruct (body_outcome a2b texts) as [HB1 _].
  assert (~ Exists part_raises texts) as HE.
  { intros HE. apply Exists_exists in HE as (p & Hp & Hr). by apply (proj1 (Forall_forall _ _) H2 p Hp). }
  destruct (HB1 HE) as (tss' & HT & HT'). rewrite (Forall2_det _ _ _ _ part_tokens_det H3 HT') in H4.
  destruct (Forall2_permute encoded _ (hts' ++ mjoin tss') _ (Permutation_app HP (Permutation_refl _)) H4) as (bs' & HP' & HF).
  exists bs'. split; [|done]. by eapply call_ok.
Qed.
Lemma call_iff U E basic only o a2b parts h texts : sane U -> no_none E ->
  (tokenizer_call U E basic only o a2b parts h texts).2 = None <-> exists bs, message_list U E o parts h texts bs.
Proof.
  intros HU HN. split.
  - destruct (tokenizer_call U E basic only o a2b parts h texts) as [vs e] eqn:EC. intros HE. simpl in HE. subst e.
    destruct (call_sound U E basic only o a2b parts h texts vs HU HN EC) as (bs & _ & H). by exists bs.
  - intros (bs & H). destruct (call_complete U E basic only o a2b parts h texts bs HU HN H) as (bs' & -> & _). done.
Qed.
Lemma message_list_det U E o parts h texts bs bs' : sane U -> no_none E ->
  message_list U E o parts h texts bs -> message_list U E o parts h texts bs' -> bs ≡ₚ bs'.
Proof.
  intros HU HN H H'.
  destruct (call_complete U E false false o (fun _ => Err ValueError) parts h texts bs HU HN H) as (b1 & E1 & ->).
  destruct (call_complete U E false false o (fun _ => Err ValueError) parts h texts bs' HU HN H') as (b2 & E2 & ->).
  rewrite E1 in E2. injection E2 as E2.
  assert (Inj (=) (=) WBytes) as HI by by intros x y [=].
  revert b2 E2. clear -HI. intros b2 E2. by apply (inj (fmap (M := list) WBytes)) in E2 as ->.
Qed.

(** Permuting the text parts *)
Lemma message_texts_order U E o parts h texts texts' bs : texts ≡ₚ texts' -> message_list U E o parts h texts bs ->
  exists bs', message_list U E o parts h texts' bs' /\ bs ≡ₚ bs'.
Proof.
  intros HP (hts & tss & H1 & H2 & H3 & H4). destruct (Forall2_permute _ _ _ _ HP H3) as (tss' & HP' & H3').
  assert (hts ++ mjoin tss ≡ₚ hts ++ mjoin tss') as HQ by by rewrite HP'.
  destruct (Forall2_permute encoded _ _ _ HQ H4) as (bs' & HB & H4').
  exists bs'. split; [|done]. exists hts, tss'. split_and!; try done. by rewrite <- HP.
Qed.
