(** * Proofs about the optional header tokens *)
From Coq Require Import String.
From Verif Require Import Py Regex RegexSpec RegexProofs StripModel StripSpec StripProofs MessageModel MessageSpec CdbModel
  NetModel NetSpec NetProofs TokenModel TokenSpec TokenProofs HeadModel HeadSpec HeadProofs HeadFieldProofs HeadScanProofs
  HeadCallProofs MailSpec MailProofs OptModel OptSpec.

(** ** Basic header tokens *)
Lemma skip_re_spec k : (exists w y, k = w ++ y /\
  matches (RSeq (rlit (str "received date x-")) (RStar (RChr (fun c => negb (c =? 10)%N)))) [] w y) <->
  str "received date x-" `prefix_of` k.
Proof.
  split.
  - intros (w & y & -> & u & v & -> & H & _). apply matches_lit in H as ->. exists (v ++ y). by rewrite <- app_assoc.
  - intros [y ->]. exists (str "received date x-" ++ []), y. split; [by rewrite app_nil_r|].
    exists (str "received date x-"), []. split_and!; [done|by apply matches_lit|constructor].
Qed.
Lemma is_skipped_spec k : is_skipped (lower k) = true <-> skipped_name k.
Proof.
  unfold is_skipped, skipped_name, basic_skip. cbn [existsb]. rewrite orb_false_r, <- skip_re_spec.
  change (start (lower k)) with (at_ [] (lower k)).
  destruct (rmatch1 _ (at_ [] (lower k))) as [[d g]|] eqn:ER.
  - split; [|done]. intros _. destruct (rmatch1_some _ _ _ _ _ ER) as (w & y & H1 & _ & H2). by exists w, y.
  - split; [done|]. intros (w & y & H1 & H2). by destruct (proj1 (rmatch1_none _ _ _) ER w y H1).
Qed.

Lemma label_word_ok p w : length w <= 12 ->
  (let '(ts, e) := tokenize_word (WStr w) in label p ts e) = (if decide (3 <= length w) then [WStr (p ++ w)] else [], None).
Proof.
  intros H. destruct (text_word w) as (H1 & H2 & _). destruct (decide (3 <= length w)).
  - by rewrite H2.
  - rewrite H1 by lia. done.
Qed.
Lemma label_words_ok p ws : Forall (fun w => length w <= 12) ws ->
  gfor (fun w => let '(ts, e) := tokenize_word (WStr w) in label p ts e) ws =
  ((fun w => WStr (p ++ w)) <$> filter (fun w => 3 <= length w) ws, None).
Proof.
  induction 1 as [|w ws Hw _ IH]; [done|]. cbn [gfor]. rewrite IH, label_word_ok by done.
  destruct (decide (3 <= length w)); [rewrite filter_cons_True by done|rewrite filter_cons_False by done]; done.
Qed.
Lemma label_words_bad p ws : ~ Forall (fun w => length w <= 12) ws ->
  (gfor (fun w => let '(ts, e) := tokenize_word (WStr w) in label p ts e) ws).2 = Some TypeError.
Proof.
  induction ws as [|w ws IH]; intros H; [by destruct H|]. cbn [gfor]. apply gapp_some.
  destruct (decide (12 < length w)) as [Hw|Hw].
  - left. unfold tokenize_word, SKIP_MAX_WORD_SIZE. cbn [wcodes].
    destruct (Nat.ltb_spec (length w) 3); [lia|]. destruct (Nat.leb_spec (length w) 12); [lia|].
    by destruct (length w <? 40).
  - right. rewrite label_word_ok by lia. split; [done|]. apply IH. intros HF. apply H. constructor; [lia|done].
Qed.
Lemma word_runs U s : runs (subject_word_char U) s (findall (subject_word_re U) s).
Proof. eapply runs_ext; [|apply findall_runs]. intros c. apply subject_char_spec. Qed.

Lemma basic_header_cases U kv :
  (exists ts, basic_header U kv = (ts, None) /\ basic_header_list U kv ts) \/
  ((basic_header U kv).2 = Some TypeError /\ forall ts, ~ basic_header_list U kv ts).
Proof.
  unfold basic_header. cbv zeta. pose proof (is_skipped_spec kv.1) as HS. destruct (is_skipped (lower kv.1)).
  - left. exists []. split; [done|]. left. split; [by apply HS|done].
  - assert (~ skipped_name kv.1) as HN by (intros H; by apply HS in H).
    assert (forall x : fetched, fetch kv.2 = x -> (forall s, x <> FText s) -> forall ts, ~ basic_header_list U kv ts) as HX.
    { intros x Hx Hn ts [[H _]|(_ & s & ws & H & _)]; [done|]. apply fetch_text in H. rewrite H in Hx. by apply (Hn s). }
    destruct (fetch kv.2) as [|s|s] eqn:EF; [right; split; [done|by apply (HX _ eq_refl)]| |right; split; [done|by apply (HX _ eq_refl)]].
    pose proof (word_runs U s) as HR. set (ws := findall (subject_word_re U) s) in *.
    destruct (decide (Forall (fun w => length w <= 12) ws)) as [HF|HF].
    + left. rewrite label_words_ok by done. eexists. split; [done|]. right. split; [done|]. exists s, ws. split_and!; try done.
      * by apply fetch_text_inv.
      * apply list_fmap_ext. intros _ w _. by rewrite <- app_assoc.
    + right. split; [by apply label_words_bad|]. intros ts [[H _]|(_ & s' & ws' & H & HR' & HF' & _)]; [done|].
      apply fetch_text in H. rewrite H in EF. injection EF as ->. by rewrite (runs_det _ _ _ _ HR' HR) in HF'.
Qed.
Lemma basic_header_list_det U kv ts ts' : basic_header_list U kv ts -> basic_header_list U kv ts' -> ts = ts'.
Proof.
  intros [[H ->]|(H & s & ws & HT & HR & _ & ->)] [[H' ->]|(H' & s' & ws' & HT' & HR' & _ & ->)]; try done.
  rewrite (text_value_det _ _ _ HT' HT) in HR'. by rewrite (runs_det _ _ _ _ HR HR').
Qed.
Lemma basic_header_iff U kv ts : basic_header U kv = (ts, None) <-> basic_header_list U kv ts.
Proof.
  destruct (basic_header_cases U kv) as [(ts' & H1 & H2)|[H1 H2]].
  - rewrite H1. split; [intros [= <-]; done|]. intros H. by rewrite (basic_header_list_det _ _ _ _ H H2).
  - split; [intros H; by rewrite H in H1|]. intros H. by destruct (H2 ts).
Qed.
Lemma basic_iff U h ts : gfor (basic_header U) h = (ts, None) <-> basic_list U h ts.
Proof. apply gfor_iff. intros kv t _. apply basic_header_iff. Qed.
Lemma basic_raises U h : (forall ts, ~ basic_list U h ts) -> (gfor (basic_header U) h).2 = Some TypeError.
Proof.
  intros H. destruct (gfor_err (basic_header U) (eq TypeError) h) as (e & E & <-); [| |done].
  - intros kv e _ HE. destruct (basic_header_cases U kv) as [(ts' & H1 & H2)|[H1 H2]]; [by rewrite H1 in HE|congruence].
  - destruct (decide (Exists (fun kv => (basic_header U kv).2 <> None) h)) as [|HN]; [done|]. exfalso.
    assert (exists tss, Forall2 (basic_header_list U) h tss) as (tss & HF).
    { clear H. induction h as [|kv h IH]; [by exists []; constructor|].
      destruct IH as (tss & IH); [intros HE; apply HN; by right|].
      destruct (basic_header_cases U kv) as [(ts & _ & H2)|[H1 _]].
      - exists (ts :: tss). by constructor.
      - exfalso. apply HN. left. by rewrite H1. }
    apply (H (mjoin tss)). by exists tss.
Qed.

(** ** Habeas headers *)
Lemma hget_hget_default h name : hget h name = hget_default h name FNone.
Proof. induction h as [|[k v] h IH]; [done|]. simpl. by rewrite IH. Qed.
Lemma hget_lower h name : hget h (lower name) = hget h name.
Proof.
  assert (lower (lower name) = lower name) as HL.
  { unfold lower. rewrite <- list_fmap_compose. apply list_fmap_ext. intros _ c _. simpl. unfold lower_char.
    destruct ((65 <=? c) && (c <=? 90))%N eqn:EC; [|by rewrite EC].
    apply andb_true_iff in EC as [E1 E2]. apply N.leb_le in E1, E2.
    destruct (N.leb_spec (c + 32) 90); [lia|]. by rewrite andb_false_r. }
  induction h as [|[k v] h IH]; [done|]. simpl. unfold same_name at 1 2. by rewrite HL, IH.
Qed.
Lemma habeas_marks_eq : habeas_marks = (fun ov => (lower ov.1, ov.2)) <$> habeas_headers.
Proof. done. Qed.
Lemma lower_lower s : lower (lower s) = lower s.
Proof.
  unfold lower. rewrite <- list_fmap_compose. apply list_fmap_ext. intros _ c _. simpl. unfold lower_char.
  destruct ((65 <=? c) && (c <=? 90))%N eqn:EC; [|by rewrite EC].
  apply andb_true_iff in EC as [E1 E2]. apply N.leb_le in E1, E2.
  destruct (N.leb_spec (c + 32) 90); [lia|]. by rewrite andb_false_r.
Qed.
Lemma habeas_value_spec h ov :
  match habeas_value h ov with
  | None => mark_missing h (lower ov.1, ov.2)
  | Some true => mark_right h (lower ov.1, ov.2)
  | Some false => mark_wrong h (lower ov.1, ov.2)
  end.
Proof.
  unfold habeas_value, mark_missing, mark_right, mark_wrong. cbn [fst snd].
  pose proof (hget_default_or h (lower ov.1) FNone) as HO. rewrite <- hget_hget_default, hget_lower in HO.
  destruct (hget h ov.1) as [|s|s] eqn:EG.
  - by apply HO; [apply lower_lower|].
  - destruct (bool_decide_reflect (s = ov.2)) as [->|Hs].
    + by apply HO; [apply lower_lower|].
    + exists (FText s). split_and!; [by apply HO; [apply lower_lower|]|done|congruence].
  - exists (FHeader s). split_and!; [by apply HO; [apply lower_lower|]|done|done].
Qed.
Lemma mark_excl h ov : 
  (mark_missing h (lower ov.1, ov.2) -> habeas_value h ov = None) /\
  (mark_right h (lower ov.1, ov.2) -> habeas_value h ov = Some true) /\
  (mark_wrong h (lower ov.1, ov.2) -> habeas_value h ov = Some false).
Proof.
  unfold habeas_value, mark_missing, mark_right, mark_wrong. cbn [fst snd].
  pose proof (hget_default_or h (lower ov.1) FNone) as HO. rewrite <- hget_hget_default, hget_lower in HO.
  split_and!.
  - intros H. apply HO in H; [|apply lower_lower]. by rewrite H.
  - intros H. apply HO in H; [|apply lower_lower]. rewrite H. by rewrite bool_decide_true.
  - intros (x & H & H1 & H2). apply HO in H; [|apply lower_lower]. rewrite H. destruct x; [done| |done].
    rewrite bool_decide_false; [done|congruence].
Qed.

Lemma habeas_each h : exists tss, Forall2 (mark_tokens h) habeas_marks tss /\ habeas_tokens false h = mjoin tss.
Proof.
  unfold habeas_tokens. rewrite habeas_marks_eq. generalize habeas_headers. intros l.
  induction l as [|ov l (tss & IH1 & IH2)]; [by exists []; split; [constructor|]|].
  cbn [flat_map]. rewrite IH2. pose proof (habeas_value_spec h ov) as HV.
  eexists (_ :: tss). split; [|done]. csimpl. constructor; [|done]. unfold mark_tokens.
  destruct (habeas_value h ov) as [[]|]; [right; left|right; right|left]; done.
Qed.

Definition hcount (h : headers) (l : list (codes * codes)) : nat * bool :=
  foldl (fun '(valid, invalid) ov =>
    match habeas_value h ov with
    | None => (valid, invalid)
    | Some true => (S valid, invalid)
    | Some false => (valid, true)
    end) (0, false) l.
Lemma hcount_spec h l :
  ((hcount h l).2 = true <-> Exists (fun ov => habeas_value h ov = Some false) l) /\
  (hcount h l).1 = length (filter (fun ov => habeas_value h ov = Some true) l).
Proof.
  unfold hcount. induction l as [|ov l [IH1 IH2]] using rev_ind.
  - split; [|done]. split; [done|]. intros H. by apply Exists_nil in H.
  - rewrite foldl_app. cbn [foldl]. rewrite filter_app, app_length, Exists_app, Exists_cons, Exists_nil.
    destruct (foldl _ (0, false) l) as [valid invalid]. cbn [fst snd] in *. rewrite filter_cons, filter_nil.
    destruct (habeas_value h ov) as [[]|] eqn:EV; cbn [fst snd].
    + rewrite decide_True by done. simpl. split; [naive_solver|lia].
    + rewrite decide_False by done. simpl. split; [naive_solver|lia].
    + rewrite decide_False by done. simpl. split; [naive_solver|lia].
Qed.
Lemma filter_full {A} (P : A -> Prop) `{!forall x, Decision (P x)} (l : list A) : length (filter P l) = length l <-> Forall P l.
Proof.
  induction l as [|x l IH]; [split; [constructor|done]|]. rewrite filter_cons, Forall_cons. pose proof (filter_length P l).
  destruct (decide (P x)); simpl; [|split; [lia|naive_solver]]. rewrite <- IH. naive_solver lia.
Qed.
Lemma wrong_exists h : Exists (mark_wrong h) habeas_marks <-> Exists (fun ov => habeas_value h ov = Some false) habeas_headers.
Proof.
  rewrite habeas_marks_eq. generalize habeas_headers. intros l. induction l as [|ov l IH]; [by rewrite !Exists_nil|].
  csimpl. rewrite !Exists_cons, IH. f_equiv. split; [by apply mark_excl|]. intros H. pose proof (habeas_value_spec h ov) as HV.
  by rewrite H in HV.
Qed.
Lemma right_all h : Forall (mark_right h) habeas_marks <-> Forall (fun ov => habeas_value h ov = Some true) habeas_headers.
Proof.
  rewrite habeas_marks_eq. generalize habeas_headers. intros l. induction l as [|ov l IH]; [by split; constructor|].
  csimpl. rewrite !Forall_cons, IH. f_equiv. split; [by apply mark_excl|]. intros H. pose proof (habeas_value_spec h ov) as HV.
  by rewrite H in HV.
Qed.
Lemma habeas_one h : habeas_list (Some true) h (habeas_tokens true h).
Proof.
  cbn [habeas_list]. rewrite wrong_exists, right_all. unfold habeas_tokens, habeas_count.
  fold (hcount h habeas_headers). destruct (hcount_spec h habeas_headers) as [H1 H2].
  destruct (hcount h habeas_headers) as [valid invalid]. cbn [fst snd] in *. rewrite <- H1, <- filter_full, <- H2.
  change (length habeas_headers) with 9. destruct invalid; [by left|].
  destruct (Nat.eqb_spec valid 9); [right; left; done|right; right; done].
Qed.
Lemma mark_tokens_det h m ts ts' : m ∈ habeas_marks -> mark_tokens h m ts -> mark_tokens h m ts' -> ts = ts'.
Proof.
  rewrite habeas_marks_eq. intros Hm. apply elem_of_list_fmap in Hm as (ov & -> & _).
  destruct (mark_excl h ov) as (H1 & H2 & H3). unfold mark_tokens. naive_solver congruence.
Qed.
Lemma habeas_det hb h ts ts' : habeas_list hb h ts -> habeas_list hb h ts' -> ts = ts'.
Proof.
  destruct hb as [[]|]; cbn [habeas_list].
  - assert (Exists (mark_wrong h) habeas_marks -> Forall (mark_right h) habeas_marks -> False) as HX.
    { rewrite wrong_exists, right_all, Exists_exists, Forall_forall. intros (ov & H1 & H2) H. apply H in H1. congruence. }
    naive_solver.
  - intros (tss & HF & ->) (tss' & HF' & ->). f_equal. revert tss tss' HF HF'.
    assert (forall m, m ∈ habeas_marks -> forall ts ts', mark_tokens h m ts -> mark_tokens h m ts' -> ts = ts') as HD
      by (intros m Hm t t'; by apply mark_tokens_det).
    revert HD. generalize habeas_marks. intros l HD. induction l as [|m l IH]; intros tss tss' HF HF';
      inversion HF; inversion HF'; subst; [done|]. f_equal; [by eapply (HD m); [left|..]|].
    apply IH; [|done|done]. intros m' Hm'. apply HD. by right.
  - congruence.
Qed.
Lemma habeas_iff hb h ts : (match hb with None => gok [] | Some reduce => gok (habeas_tokens reduce h) end) = (ts, None) <->
  habeas_list hb h ts.
Proof.
  assert (habeas_list hb h (match hb with None => [] | Some reduce => habeas_tokens reduce h end)) as HL.
  { destruct hb as [[]|]; [apply habeas_one|exact (habeas_each h)|done]. }
  split.
  - intros H. destruct hb as [[]|]; injection H as <-; exact HL.
  - intros H. rewrite (habeas_det _ _ _ _ H HL). by destruct hb as [[]|].
Qed.

(** ** All headers *)
Lemma headers_with_default U E only o parts h :
  tokenize_headers_with U E false only None o parts h = tokenize_headers U E o parts h.
Proof. 
  unfold tokenize_headers_with, tokenize_headers. cbn [andb]. f_equal.
  change (gapp (gok []) ?g) with (gapp (gok []) g). repeat (rewrite gapp_ok; cbn [app]). 
  repeat match goal with |- context [?g.1] => rewrite <- (surjective_pairing g) end. done.
Qed.
Lemma headers_with_eq U E basic only hb o parts h : tokenize_headers_with U E basic only hb o parts h =
  gapp (gfor (crack_content_xyz U) parts) (gapp (if basic then gfor (basic_header U) h else gok [])
   (if basic && only then gok [] else
     gapp (match hb with None => gok [] | Some reduce => gok (habeas_tokens reduce h) end) (tokenize_headers U E o [] h))).
Proof.
  unfold tokenize_headers_with. f_equal. f_equal. destruct (basic && only); [done|]. f_equal.
  unfold tokenize_headers. cbn [gfor]. change ([], None) with (gok []). rewrite gapp_ok. cbn [app]. by rewrite <- surjective_pairing.
Qed.
Lemma headers_with_sound U E basic only hb o parts h ts : sane U -> no_none E ->
  tokenize_headers_with U E basic only hb o parts h = (ts, None) -> header_list_with U E basic only hb o parts h ts.
Proof.
  intros HU HN. rewrite headers_with_eq. intros HS.
  apply gapp_none in HS as (t1 & r1 & H1 & HS & ->). apply gapp_none in HS as (t2 & t3 & H2 & H3 & ->).
  exists t1, t2, t3. split_and!; [by apply parts_iff| | |done].
  - destruct basic; [by apply basic_iff|by injection H2].
  - destruct (basic && only); [by injection H3|]. apply gapp_none in H3 as (t4 & t5 & H4 & H5 & ->).
    exists t4, t5. split_and!; [by apply habeas_iff|by apply headers_sound|done].
Qed.
Lemma headers_with_complete U E basic only hb o parts h ts : sane U -> no_none E -> header_list_with U E basic only hb o parts h ts ->
  exists ts', tokenize_headers_with U E basic only hb o parts h = (ts', None) /\ ts ≡ₚ ts'.
Proof.
  intros HU HN (t1 & t2 & t3 & H1 & H2 & H3 & ->). rewrite headers_with_eq. apply parts_iff in H1. rewrite H1.
  assert ((if basic then gfor (basic_header U) h else gok []) = (t2, None)) as ->.
  { destruct basic; [by apply basic_iff|by subst]. }
  destruct (basic && only).
  - subst t3. eexists. split; [done|done].
  - destruct H3 as (t4 & t5 & H4 & H5 & ->). apply habeas_iff in H4. rewrite H4.
    destruct (headers_complete U E o [] h t5 HU HN H5) as (t5' & -> & HP). eexists. split; [done|]. by rewrite HP.
Qed.
