(** * Lemmas about what the filter writes in the headers (C140, C46, C48) *)
From Coq Require Import String.
From Verif Require Import Py NumModel ClassifierModel MessageModel MessageSpec MessageProofs TextProofs MessageCases WriteSpec.

(** ** Names *)
Lemma spelled_char a b : (b < 65)%N \/ (90 < b)%N ->
  (lower_char a = b <-> (a = b \/ exists i, (i < 26)%N /\ a = (65 + i)%N /\ b = (97 + i)%N)).
Proof.
  intros Hb. unfold lower_char. destruct ((65 <=? a) && (a <=? 90))%N eqn:E.
  - apply andb_true_iff in E as [E1 E2]. apply N.leb_le in E1, E2. split.
    + intros <-. right. exists (a - 65)%N. lia.
    + intros [->|(i&?&->&->)]; lia.
  - apply andb_false_iff in E. rewrite !N.leb_gt in E. split; [auto|]. intros [->|(i&?&->&->)]; [done|lia].
Qed.
Lemma spelled_lower k n : small n -> (lower k = n <-> spelled k n).
Proof.
  intros Hn. revert k. induction Hn as [|b n Hb Hn IH]; intros k.
  - split; [by destruct k; [constructor|]|intros H; by inversion H].
  - destruct k as [|a k].
    + split; [done|]. intros H. by inversion H.
    + split.
      * intros E. injection E as E1 E2. constructor; [by apply spelled_char|by apply IH].
      * intros H. inversion H as [|? ? ? ? H1 H2]; subst. cbn. f_equal; [by apply spelled_char|by apply IH].
Qed.

Ltac literal_small := unfold small; apply (bool_decide_unpack _); by vm_compute.
Lemma small_to : small (str "to").
Proof. literal_small. Qed.
Lemma small_subject : small (str "subject").
Proof. literal_small. Qed.
Lemma small_filter n : n ∈ filter_headers -> small n.
Proof.
  assert (Forall small filter_headers) as H. { unfold small. apply (bool_decide_unpack _). by vm_compute. }
  intros Hn. by eapply Forall_forall in H.
Qed.

Lemma filter_spelled k : is_filter_header k <-> exists n, n ∈ filter_headers /\ spelled k n.
Proof.
  unfold is_filter_header. split.
  - intros H. exists (lower k). split; [done|]. by apply spelled_lower; [apply small_filter|].
  - intros (n&Hn&Hs). apply spelled_lower in Hs; [|by apply small_filter]. by rewrite Hs.
Qed.

Lemma removed_in_any_spelling a b h h' r : remove_sb_headers a b h = (h', r) ->
  forall k v n, (k, v) ∈ h' -> n ∈ filter_headers -> ~ spelled k n.
Proof.
  intros H k v n Hk Hn Hs. destruct (remove_spec a b h h' r H) as [HF _].
  eapply Forall_forall in HF; [|exact Hk]. apply HF, filter_spelled. by exists n.
Qed.

(** ** Ids *)
Lemma new_mail_spec x : (exists m, new_mail x = Ok m) <-> x = ANone \/ exists s, x = AStr s /\ acceptable s.
Proof.
  unfold new_mail. destruct x as [s| |eqs].
  - destruct (set_id_accepts (AStr s) (Mail None None None []) _ eq_refl) as (H&_&_).
    destruct (set_id (AStr s) (Mail None None None [])) as [m [[]|e]]; cbn [snd] in H.
    + split; [|by eauto]. intros _. right. destruct H as [H _]. destruct (H eq_refl) as (s'&[= <-]&Ha&_). by exists s.
    + split; [by intros [? ?]|]. intros [?|(s'&[= <-]&Ha)]; [done|]. destruct H as [_ H].
      assert (Err e = Ok tt) by (apply H; exists s; cbn; auto). done.
  - split; [auto|]. intros _. by eexists.
  - cbn. split; [by intros [? ?]|]. by intros [?|(s'&?&_)].
Qed.
Lemma new_mail_fields x m : new_mail x = Ok m -> g_c m = None /\ g_t m = None /\ g_h m = [] /\
  g_id m = match x with AStr s => Some s | _ => None end.
Proof.
  unfold new_mail. destruct x as [s| |eqs].
  - cbn. case_bool_decide; [done|]. by intros [= <-].
  - by intros [= <-].
  - done.
Qed.

(** ** Notations *)
Section noted.
  Context (hstr : codes -> codes).

  Lemma shown_fetched v : shown_as hstr v (fmt_fetched hstr (fetch v)).
  Proof.
    destruct v as [s|]; [|done]. cbn. destruct (has_surrogates s) eqn:E.
    - right. split; [|done]. intros H. apply has_surrogates_spec in H. congruence.
    - left. by apply has_surrogates_spec in E.
  Qed.

  Lemma noted_gen name Name note h : small name -> lower Name = name ->
    noted hstr name Name note h
      (match hreplace h Name (HText (note ++ str "," ++ fmt_fetched hstr (hget h Name))) with
       | Some h' => h' | None => hset h Name (HText note) end).
  Proof.
    intros Hs HN. destruct (absent_or_first h (lower Name)) as [Ha|[v Hv]].
    - right. rewrite hreplace_absent by done. split; [|done]. eapply Forall_impl; [exact Ha|].
      intros kv Hk Hsp. cbn in Hk. apply Hk. rewrite HN. by apply spelled_lower.
    - left. destruct Hv as (l1&k&l2&->&Hk&Hl). exists l1, k, v, l2, (fmt_fetched hstr (fetch v)).
      rewrite hreplace_split, hget_split by done. split_and!; [done| | |apply shown_fetched|done].
      + apply spelled_lower; [done|]. by rewrite Hk.
      + eapply Forall_impl; [exact Hl|]. intros kv Hk' Hsp. cbn in Hk'. apply Hk'. rewrite HN. by apply spelled_lower.
  Qed.

  Lemma noted_if_gen (P : Prop) `{Decision P} name Name note h h' : noted hstr name Name note h h' ->
    noted_if P hstr name Name note h (if bool_decide P then h' else h).
  Proof. intros Hn. case_bool_decide; [left|right]; done. Qed.
End noted.

(** ** Clues *)
Lemma picked_filter {X} (P : X -> Prop) (Q : X -> Prop) `{forall x, Decision (Q x)} l : (forall x, P x <-> Q x) -> picked P l (filter Q l).
Proof.
  intros HPQ. induction l as [|x l IH]; [constructor|]. rewrite filter_cons. case_decide.
  - constructor; [by apply HPQ|done].
  - constructor; [by rewrite HPQ|done].
Qed.
Lemma picked_fun {X} (P : X -> Prop) l l1 l2 : picked P l l1 -> picked P l l2 -> l1 = l2.
Proof.
  intros H. revert l2. induction H as [|x l l' Hx _ IH|x l l' Hx _ IH]; intros l2 H2; inversion H2; subst; try done; f_equal; auto.
Qed.

Section add.
  Context (hstr : codes -> codes) (A : num).
  Context (fs : F A -> codes) (lv : F A -> nat) (fc : pyword -> F A -> codes).
  Notation add := (add_sb_headers hstr A fs lv fc).

  Lemma called_name c : cls_name c = called c.
  Proof. by destruct c. Qed.

  Lemma shown_clues hco clues : exists shown, picked (worth_showing hco) clues shown /\
    evidence_text ((fun ws => fc ws.1 ws.2) <$> shown) (wrap_evidence (evidence_clues A fc hco clues)).
  Proof.
    unfold evidence_clues.
    match goal with |- context [filter ?Q clues] => exists (filter Q clues) end. split.
    - apply picked_filter. intros ws. unfold worth_showing. rewrite !orb_true_iff, !bool_decide_eq_true. tauto.
    - match goal with |- evidence_text ?e _ => destruct (evidence_lines e) as (gs&E1&E2&E3&_) end. exists gs. by rewrite E1.
  Qed.

  Lemma notations_noted nto nsub c h : exists h1,
    noted_if (c ∈ nto) hstr (str "to") (str "To") (called c ++ str "@spambayes.invalid") h h1 /\
    noted_if (c ∈ nsub) hstr (str "subject") (str "Subject") (called c) h1 (add_notations hstr nto nsub c h).
  Proof.
    exists (if bool_decide (c ∈ nto) then notate_to_hdr hstr c h else h). split.
    - apply noted_if_gen. exact (noted_gen hstr (str "to") n_to (called c ++ str "@spambayes.invalid") h small_to lower_to).
    - unfold add_notations. apply noted_if_gen. exact (noted_gen hstr (str "subject") n_subject (called c) _ small_subject lower_subject).
  Qed.

  Lemma add_score_returns p clues o m : exists m' c ev, add (CFloat A p) clues o m = (m', Ok tt) /\ c = classify A p /\
    added hstr fs lv fc clues o c (Some p) ev m m'.
  Proof.
    unfold add_sb_headers, mbind. cbn [set_classification]. unfold m_hset, add_score, add_level, mret. cbn [g_id g_c g_t g_h].
    destruct (shown_clues (o_hco A o) clues) as (shown&Hp&Hev).
    destruct (o_score A o) eqn:E1, (o_thermostat A o) eqn:E2, (o_evidence A o) eqn:E3, (o_add_id A o) eqn:E4; cbn [g_id g_c g_t g_h];
    (eexists _, (classify A p), _; split; [reflexivity|]; split; [done|]; unfold added; cbn [g_id g_c g_t g_h];
     split_and!; [done..|exists shown; split; [exact Hp|exact Hev]|];
     match goal with |- exists h, _ /\ noted_if _ _ _ _ _ _ (add_notations _ _ _ _ ?hh) =>
       replace (g_h m ++ written fs lv o (classify A p) (Some p) (g_id m) _) with hh;
         [apply notations_noted|unfold written, hset, if_set; rewrite E1, E2, E3, E4, called_name, <- ?app_assoc; reflexivity] end).
  Qed.

  Lemma add_class_returns c clues o m : o_score A o = false -> o_thermostat A o = false ->
    exists m' ev, add (CEnum A c) clues o m = (m', Ok tt) /\ added hstr fs lv fc clues o c None ev m m'.
  Proof.
    intros E1 E2. unfold add_sb_headers, mbind. cbn [set_classification]. unfold m_hset, mret. rewrite E1, E2. cbn [g_id g_c g_t g_h].
    destruct (shown_clues (o_hco A o) clues) as (shown&Hp&Hev).
    destruct (o_evidence A o) eqn:E3, (o_add_id A o) eqn:E4; cbn [g_id g_c g_t g_h];
    (eexists _, _; split; [reflexivity|]; unfold added; cbn [g_id g_c g_t g_h];
     split_and!; [done..|exists shown; split; [exact Hp|exact Hev]|];
     match goal with |- exists h, _ /\ noted_if _ _ _ _ _ _ (add_notations _ _ _ _ ?hh) =>
       replace (g_h m ++ written fs lv o c None (g_id m) _) with hh;
         [apply notations_noted|unfold written, hset, if_set; rewrite E3, E4, called_name, <- ?app_assoc; reflexivity] end).
  Qed.

  Lemma add_class_raises c clues o m : o_score A o = true \/ o_thermostat A o = true ->
    add (CEnum A c) clues o m =
      (Mail (g_id m) (Some c) (g_t m) (g_h m ++ [(str "X-Spambayes-Classification", HText (called c))]), Err TypeError).
  Proof.
    intros E. unfold add_sb_headers, mbind. cbn [set_classification]. unfold m_hset, mret, add_score, add_level. cbn [g_id g_c g_t g_h].
    rewrite called_name. destruct (o_score A o); [done|]. destruct E as [?| ->]; done.
  Qed.

  Lemma add_other_raises clues o m : add (COther A) clues o m = (m, Err ValueError).
  Proof. done. Qed.

  (** ** Reading back *)
  Lemma noted_hget name Name note h h' n : small name -> lower Name = name -> lower n <> name ->
    noted hstr name Name note h h' -> hget h' n = hget h n.
  Proof.
    intros Hs HN Hn [(l1&k&v&l2&t&->&Hk&_&_&->)|[_ ->]].
    - apply spelled_lower in Hk; [|done].
      induction l1 as [|[k' w] l1 IH]; cbn.
      + assert (same_name k n = false) as -> by (apply same_name_false; congruence). done.
      + destruct (same_name k' n); [done|]. exact IH.
    - induction h as [|[k' w] h IH]; cbn.
      + assert (same_name Name n = false) as -> by (apply same_name_false; congruence). done.
      + destruct (same_name k' n); [done|]. exact IH.
  Qed.
  Lemma noted_if_hget P name Name note h h' n : small name -> lower Name = name -> lower n <> name ->
    noted_if P hstr name Name note h h' -> hget h' n = hget h n.
  Proof. intros Hs HN Hn [[_ H]|[_ ->]]; [|done]. by eapply noted_hget. Qed.

  Lemma hget_mem l n v : NoDup (lower <$> l.*1) -> (n, v) ∈ l -> hget l n = fetch v.
  Proof.
    induction l as [|[k w] l IH]; intros Hd Hm; [by apply elem_of_nil in Hm|]. change (NoDup (lower k :: (lower <$> l.*1))) in Hd. apply NoDup_cons in Hd as [Hk Hd]. cbn [hget].
    apply elem_of_cons in Hm as [[= <- <-]|Hm].
    - assert (same_name n n = true) as -> by (by apply same_name_true). done.
    - assert (same_name k n = false) as ->; [|by apply IH]. apply same_name_false. intros E. apply Hk. rewrite E.
      apply elem_of_list_fmap. exists n. split; [done|]. apply elem_of_list_fmap. by exists (n, v).
  Qed.
  Lemma hget_from l n : hget l n <> FNone -> exists k v, (k, v) ∈ l /\ lower k = lower n /\ hget l n = fetch v.
  Proof.
    induction l as [|[k w] l IH]; [done|]. cbn [hget]. destruct (same_name k n) eqn:E.
    - intros _. exists k, w. apply same_name_true in E. split_and!; [by left|done|done].
    - intros H. destruct (IH H) as (k'&v&H1&H2&H3). exists k', v. split_and!; [by right|done|done].
  Qed.

  Lemma names_apart k n : k ∈ sb_names -> n ∈ sb_names -> lower k = lower n -> k = n.
  Proof.
    assert (Forall (fun k => Forall (fun n => lower k = lower n -> k = n) sb_names) sb_names) as H.
    { apply (bool_decide_unpack _). by vm_compute. }
    intros Hk Hn. eapply Forall_forall in H; [|exact Hk]. by eapply Forall_forall in H.
  Qed.
  Lemma name_is_filter n : n ∈ sb_names -> is_filter_header n /\ lower n <> str "to" /\ lower n <> str "subject".
  Proof.
    assert (Forall (fun n => is_filter_header n /\ lower n <> str "to" /\ lower n <> str "subject") sb_names) as H.
    { apply (bool_decide_unpack _). by vm_compute. }
    intros Hn. by eapply Forall_forall in H.
  Qed.

  Lemma written_names o c p id ev : NoDup (lower <$> (written fs lv o c p id ev).*1) /\
    forall n v, (n, v) ∈ written fs lv o c p id ev -> n ∈ sb_names.
  Proof.
    assert (forall l : headers, NoDup (lower <$> l.*1) /\ Forall (fun n => n ∈ sb_names) l.*1 ->
      NoDup (lower <$> l.*1) /\ forall n v, (n, v) ∈ l -> n ∈ sb_names) as Hl.
    { intros l [H1 H2]. split; [done|]. intros n v Hn. eapply Forall_forall in H2; [exact H2|]. apply elem_of_list_fmap. by exists (n, v). }
    apply Hl. clear Hl. unfold written, if_set.
    destruct p as [p|], (o_score A o), (o_thermostat A o), (o_evidence A o), (o_add_id A o);
      cbn [app fmap list_fmap fst]; split; apply (bool_decide_unpack _); by vm_compute.
  Qed.

  Lemma read_fetch v f : read_as v f <-> (fetch v = f /\ f <> FNone).
  Proof.
    destruct v as [s|]; cbn; [|split; [done|by intros [<- ?]]]. destruct (has_surrogates s) eqn:E.
    - split.
      + intros [[H _]|[_ ->]]; [apply has_surrogates_spec in H; congruence|done].
      + intros [<- _]. right. split; [|done]. intros H. apply has_surrogates_spec in H. congruence.
    - apply has_surrogates_spec in E. split; [|intros [<- _]; by left]. by intros [[_ ->]|[? _]].
  Qed.

  Lemma current_after clues o c p ev m m' : Forall (fun kv => forall n, n ∈ filter_headers -> ~ spelled kv.1 n) (g_h m) ->
    added hstr fs lv fc clues o c p ev m m' ->
    forall n f, (n, f) ∈ current_sb_headers (g_h m') <-> exists v, (n, v) ∈ written fs lv o c p (g_id m) ev /\ read_as v f.
  Proof.
    intros Hm (_&_&_&_&h&H1&H2) n f. set (w := written fs lv o c p (g_id m) ev) in *. destruct (written_names o c p (g_id m) ev) as [Hd Hin].
    fold w in Hd, Hin.
    assert (forall n, n ∈ sb_names -> hget (g_h m') n = hget w n) as Hget.
    { intros n' Hn. destruct (name_is_filter n' Hn) as (Hf&Ht&Hs).
      rewrite (noted_if_hget _ _ _ _ _ _ n' small_subject lower_subject Hs H2), (noted_if_hget _ _ _ _ _ _ n' small_to lower_to Ht H1).
      apply hget_app_absent. eapply Forall_impl; [exact Hm|]. intros kv Hk E. cbn in Hk. apply (Hk (lower n')); [exact Hf|].
      apply spelled_lower; [by apply small_filter|done]. }
    unfold current_sb_headers. rewrite elem_of_list_omap. split.
    - intros (n'&Hn&E). rewrite Hget in E by done.
      assert (hget w n' <> FNone) as Hne by (by destruct (hget w n')).
      destruct (hget_from w n' Hne) as (k&v&Hk&Hl&Hv). assert (k = n') as -> by (apply names_apart; eauto).
      exists v. assert (n' = n /\ hget w n' = f) as [-> Hf] by (destruct (hget w n'); by simplify_eq).
      split; [done|]. apply read_fetch. split; [congruence|by rewrite <- Hf].
    - intros (v&Hv&Hr). apply read_fetch in Hr as [Hf Hne]. exists n. assert (n ∈ sb_names) as Hn by eauto. split; [done|].
      rewrite Hget, (hget_mem w n v), Hf by done. by destruct f.
  Qed.
End add.

(** ** The evidence of a classifier *)
Lemma evidence_shown {A : num} {St} (bk : backend St) it s (o o' : obj A St) p ev hco shown :
  spamprob_evidence bk it s o = (o', Ok (p, ev)) -> picked (worth_showing hco) ev shown ->
  exists h sp rest rest', ev = (WBytes (str "*H*"), h) :: (WBytes (str "*S*"), sp) :: rest /\
    shown = (WBytes (str "*H*"), h) :: (WBytes (str "*S*"), sp) :: rest' /\ picked (worth_showing hco) rest rest'.
Proof.
  unfold spamprob_evidence, mbind. destruct (getclues bk it s o) as [o1 [cs|e]]; [|done].
  destruct (score_probs A (c_prob <$> cs)) as [[[q x] y]|e]; [|done]. cbn [rbind]. unfold evidence_of. intros [= <- <- <-] Hp.
  inversion Hp as [|? ? l1 _ Hp1|? ? ? Hn _]; subst; [|exfalso; apply Hn; by left].
  inversion Hp1 as [|? ? l2 _ Hp2|? ? ? Hn _]; subst; [|exfalso; apply Hn; right; by left].
  by eexists _, _, _, _.
Qed.
