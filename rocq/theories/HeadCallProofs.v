(** * Proofs about Received headers, header counts and the whole call *)
From Coq Require Import String.
From Verif Require Import Py Regex RegexSpec RegexProofs StripModel StripSpec StripProofs CdbModel MessageModel MessageSpec
  NetModel NetSpec NetProofs NetCases TokenModel TokenSpec TokenProofs HeadModel HeadSpec HeadProofs HeadFieldProofs HeadScanProofs.

(** ** Received headers *)

Lemma search_cases r (P : codes -> codes -> codes -> Prop) (Q : codes -> codes -> Prop) bd t :
  (forall x w y, matches r x w y <-> P x w y) ->
  (forall x s d g, rmatch1 r (at_ x s) = Some (d, g) -> exists w y, s = w ++ y /\ d = at_ (x ++ w) y /\ Q w (the_group 1 g)) ->
  exists l, received_search r bd t = (fun c => WStr (str "received:" ++ c)) <$> l /\
    ((nowhere P [] t /\ l = []) \/ (exists k w y z, leftmost P [] t k w y /\ Q w z /\ l = bd z)).
Proof.
  intros HM HG. unfold received_search. pose proof (rsearch_spec r t []) as HS.
  change (rsearch r (start t)) with (rsearch_from r (reverse []) t).
  destruct (rsearch_from r (reverse []) t) as [[[c d] g]|].
  - destruct HS as (k & w & y & HL & -> & -> & H1). exists (bd (the_group 1 g)). split; [done|]. right.
    destruct (HG _ _ _ _ H1) as (w' & y' & E & E' & HQ). apply at_inj in E' as [E1 <-].
    assert (w' = w) as ->.
    { rewrite <- app_assoc in E1. apply app_inv_head in E1. by apply app_inv_head in E1. }
    exists k, w, y, (the_group 1 g). split_and!; [by apply (leftmost_iff _ P) in HL|done|done].
  - exists []. split; [done|]. left. split; [|done]. intros x w y E HP. apply (HS x w y E). by apply HM.
Qed.

Lemma received_ok U v s : text_value v s -> exists l, received_tokens U (fetch v) = ((fun t => WStr (str "received:" ++ t)) <$> l, None) /\
  received_list U s l.
Proof.
  intros Hv. rewrite (fetch_text v s Hv). cbn [received_tokens]. set (t := u_lower U (normalized U s)).
  destruct (search_cases (received_host_re U) (host_here U) (from_host U) breakdown_host t) as (hs & E1 & H1);
    [apply host_matches|apply host_group|].
  destruct (search_cases (received_ip_re U) (ip_here U) (bracketed U) breakdown_ipaddr t) as (ips & E2 & H2);
    [apply ip_matches|apply ip_group|].
  exists (findall (received_complaints_re U) t ++ hs ++ ips). split.
  - unfold gok. by rewrite E1, E2, !fmap_app.
  - exists t, (findall (received_complaints_re U) t), hs, ips. split_and!.
    + destruct (normalized_spec U s) as (ws & K1 & K2). exists ws. split; [done|]. unfold t. by rewrite K2.
    + apply findall_found; [apply complaint_spec|apply complaint_nonempty].
    + done.
    + destruct H1 as [H1|(k & w & y & host & K1 & K2 & ->)]; [by left|right]. exists k, w, y, host. split_and!; [done|done|].
      destruct (host_tokens host) as (K3 & K4 & _). done.
    + destruct H2 as [H2|(k & w & y & ip & K1 & K2 & ->)]; [by left|right]. exists k, w, y, ip. split_and!; [done|done|].
      destruct (NetCases.address_tokens ip) as (K3 & K4 & _). done.
Qed.
Lemma received_err U v : (forall s, ~ text_value v s) -> received_tokens U (fetch v) = ([], Some AttributeError).
Proof. intros H. destruct (fetch v) eqn:E; [done| |done]. exfalso. by apply (H s), fetch_text_inv. Qed.

(** Lists of suffixes and of prefixes are determined. *)
Lemma longer_nth l : longer_and_longer l -> forall i j a b, i < j -> l !! i = Some a -> l !! j = Some b -> length a < length b.
Proof.
  intros HL i j. revert i. induction j as [|j IH]; intros i a b Hij Ha Hb; [lia|].
  assert (is_Some (l !! j)) as [c Hc] by (unfold codes in *; apply lookup_lt_is_Some; apply lookup_lt_Some in Hb; lia).
  pose proof (HL j c b Hc Hb). destruct (decide (i = j)) as [->|].
  { assert (a = c) as -> by (unfold codes in *; congruence). done. }
  assert (length a < length c) by (apply (IH i a c); [lia|done|done]). lia.
Qed.
Lemma longer_tail a l : longer_and_longer (a :: l) -> longer_and_longer l /\ Forall (fun b => length a < length b) l.
Proof.
  intros H. split.
  - intros i b c Hb Hc. by apply (H (S i) b c).
  - apply Forall_lookup. intros i b Hb. by apply (longer_nth _ H 0 (S i)); [lia|..].
Qed.
Lemma longer_unique l l' : longer_and_longer l -> longer_and_longer l' -> (forall t, t ∈ l <-> t ∈ l') -> l = l'.
Proof.
  revert l'. induction l as [|a l IH]; intros [|b l'] H H' HE.
  - done.
  - assert (b ∈ @nil codes) as Hb by (apply HE; left). by apply elem_of_nil in Hb.
  - assert (a ∈ @nil codes) as Ha by (apply HE; left). by apply elem_of_nil in Ha.
  - apply longer_tail in H as [H HF], H' as [H' HF']. rewrite Forall_forall in HF, HF'.
    assert (a = b) as ->.
    { assert (a ∈ b :: l') as Ha by (apply HE; left). assert (b ∈ a :: l) as Hb by (apply HE; left).
      apply elem_of_cons in Ha as [Ha|Ha]; [done|]. apply elem_of_cons in Hb as [Hb|Hb]; [done|].
      apply HF' in Ha. apply HF in Hb. lia. }
    f_equal. apply IH; [done|done|]. intros t. split; intros Ht.
    + assert (t ∈ b :: l') as Ht' by (apply HE; by right). apply elem_of_cons in Ht' as [->|]; [|done]. apply HF in Ht. lia.
    + assert (t ∈ b :: l) as Ht' by (apply HE; by right). apply elem_of_cons in Ht' as [->|]; [|done]. apply HF' in Ht. lia.
Qed.
Lemma prefixes_unique ip l l' : dot_prefixes ip l -> dot_prefixes ip l' -> l = l'.
Proof.
  intros [H1 H2] [H1' H2']. destruct (NetCases.address_tokens ip) as (_ & _ & HU & _).
  apply list_eq_same_length with 4; [done|done|]. intros i t t' _ Ht Ht'. apply H2 in Ht as [? ?]. apply H2' in Ht' as [? ?].
  apply HU; [done|done|congruence].
Qed.

Lemma received_list_det U s ts ts' : sane U -> received_list U s ts -> received_list U s ts' -> ts = ts'.
Proof.
  intros HU (t & cs & hs & ips & (ws & F1 & ->) & H1 & -> & H2 & H3) (t' & cs' & hs' & ips' & (ws' & F1' & ->) & H1' & -> & H2' & H3').
  assert (ws' = ws) as -> by by eapply runs_det. f_equal; [|f_equal].
  - eapply found_det; [by apply complaint_functional|done|done].
  - destruct H2 as [[N1 ->]|(k & w & y & z & L1 & Q1 & D1)], H2' as [[N1' ->]|(k' & w' & y' & z' & L1' & Q1' & D1')].
    + done.
    + exfalso. by eapply leftmost_not_nowhere.
    + exfalso. by eapply leftmost_not_nowhere.
    + destruct (leftmost_unique _ _ _ _ _ _ _ _ _ (host_functional U HU) L1 L1') as (<- & <- & <-).
      rewrite (from_host_det _ _ _ _ Q1' Q1) in D1'. destruct D1 as [D1 D2], D1' as [D1' D2'].
      apply longer_unique; [done|done|]. intros t. by rewrite D1, D1'.
  - destruct H3 as [[N1 ->]|(k & w & y & z & L1 & Q1 & D1)], H3' as [[N1' ->]|(k' & w' & y' & z' & L1' & Q1' & D1')].
    + done.
    + exfalso. by eapply leftmost_not_nowhere.
    + exfalso. by eapply leftmost_not_nowhere.
    + destruct (leftmost_unique _ _ _ _ _ _ _ _ _ (ip_functional U HU) L1 L1') as (<- & <- & <-).
      rewrite (bracketed_det _ _ _ _ Q1' Q1) in D1'. by eapply prefixes_unique.
Qed.

(** ** Header counts *)

Definition occ (x : codes) (keys : list codes) : nat := length (filter (fun k => k = x) keys).
Lemma occ_snoc x keys y : occ x (keys ++ [y]) = occ x keys + if decide (y = x) then 1 else 0.
Proof. unfold occ. rewrite filter_app, app_length, filter_cons. by destruct (decide (y = x)). Qed.
Lemma occ_zero x keys : occ x keys = 0 <-> x ∉ keys.
Proof.
  induction keys as [|k keys IH] using rev_ind; [split; [intros _ H; by apply elem_of_nil in H|done]|].
  rewrite occ_snoc, elem_of_app, elem_of_list_singleton. destruct (decide (k = x)) as [->|Hn].
  - split; [lia|]. intros H. destruct H. by right.
  - split; [intros H [H'|H']; [apply IH in H'; [done|lia]|done]|]. intros H. rewrite Nat.add_0_r. apply IH. naive_solver.
Qed.

Lemma bump_fst l x : (bump l x).*1 = if decide (x ∈ l.*1) then l.*1 else l.*1 ++ [x].
Proof.
  induction l as [|[y n] l IH]; [done|]. cbn [bump]. destruct (bool_decide_reflect (y = x)) as [->|Hn].
  - csimpl. rewrite decide_True; [done|left].
  - csimpl. rewrite IH. destruct (decide (x ∈ l.*1)) as [H|H].
    + rewrite decide_True; [done|by right].
    + rewrite decide_False; [done|]. intros H'. apply elem_of_cons in H' as [H'|H']; [by subst|done].
Qed.
Lemma bump_elem l x y n : NoDup l.*1 ->
  (y, n) ∈ bump l x <-> (y <> x /\ (y, n) ∈ l) \/ (y = x /\ ((exists m, n = S m /\ (x, m) ∈ l) \/ (n = 1 /\ x ∉ l.*1))).
Proof.
  induction l as [|[z m] l IH]; intros HN.
  - cbn [bump]. rewrite elem_of_list_singleton. split.
    + intros [= -> ->]. right. split; [done|]. right. split; [done|]. intros H. by apply elem_of_nil in H.
    + intros [[_ H]|[-> [(m & _ & H)|[-> _]]]]; [by apply elem_of_nil in H|by apply elem_of_nil in H|done].
  - csimpl in HN. apply NoDup_cons in HN as [HN1 HN2]. cbn [bump]. destruct (bool_decide_reflect (z = x)) as [->|Hn].
    + rewrite !elem_of_cons. split.
      * intros [[= -> ->]|H]; [right; split; [done|]; left; exists m; split; [done|left]|].
        destruct (decide (y = x)) as [->|Hy]; [|by left; split; [|right]].
        exfalso. apply HN1. apply elem_of_list_fmap. by exists (x, n).
      * intros [[Hy [[= -> ->]|H]]|[-> [(m' & -> & H)|[-> H]]]]; [done|by right| |].
        -- apply elem_of_cons in H as [[= ->]|H]; [by left|].
           exfalso. apply HN1. apply elem_of_list_fmap. by exists (x, m').
        -- exfalso. apply H. left.
    + rewrite !elem_of_cons, IH by done. split.
      * intros [[= -> ->]|[[Hy H]|[-> [(m' & -> & H)|[-> H]]]]].
        -- left. split; [done|by left].
        -- left. split; [done|by right].
        -- right. split; [done|]. left. exists m'. split; [done|by right].
        -- right. split; [done|]. right. split; [done|]. csimpl. intros H'. apply elem_of_cons in H' as [->|H']; done.
      * intros [[Hy [[= -> ->]|H]]|[-> [(m' & -> & H)|[-> H]]]].
        -- by left.
        -- right. by left.
        -- apply elem_of_cons in H as [[= -> ->]|H]; [done|]. right; right. split; [done|]. left. by exists m'.
        -- right; right. split; [done|]. right. split; [done|]. intros H'. apply H. by right.
Qed.

Lemma bumps keys : NoDup (foldl bump [] keys).*1 /\
  forall x n, (x, n) ∈ foldl bump [] keys <-> n = occ x keys /\ 0 < n.
Proof.
  induction keys as [|k keys [IH1 IH2]] using rev_ind; [split; [constructor|]|].
  - intros x n. simpl. split; [intros H; by apply elem_of_nil in H|]. unfold occ. simpl. lia.
  - rewrite foldl_snoc. split.
    + rewrite bump_fst. destruct (decide (k ∈ (foldl bump [] keys).*1)); [done|]. apply NoDup_app. split_and!; [done| |apply NoDup_singleton].
      intros x Hx Hk. apply elem_of_list_singleton in Hk. by subst.
    + intros x n. rewrite bump_elem by done. rewrite occ_snoc. setoid_rewrite IH2.
      assert (x ∉ (foldl bump [] keys).*1 <-> occ x keys = 0) as HX.
      { rewrite elem_of_list_fmap. split.
        - intros H. destruct (occ x keys) as [|m] eqn:E; [done|]. destruct H. exists (x, S m). split; [done|]. apply IH2. lia.
        - intros H ([x' m] & -> & Hm). apply IH2 in Hm as [-> Hm]. simpl in H. lia. }
      destruct (decide (k = x)) as [->|Hk].
      * split.
        -- intros [[H _]|[_ [(m & -> & -> & Hm)|[-> H]]]]; [done|lia|]. apply HX in H. lia.
        -- intros [-> _]. right. split; [done|]. destruct (occ x keys) as [|m] eqn:E.
           ++ right. split; [done|]. by apply HX.
           ++ left. exists (S m). split; [lia|]. lia.
      * split.
        -- intros [[_ [-> H]]|[-> _]]; [|done]. split; [lia|done].
        -- intros [-> H]. left. split; [by intros ->|]. lia.
Qed.

Lemma digits_fuel_num fuel n acc : Forall (fun c => 48 <= c <= 57)%N acc -> Forall (fun c => 48 <= c <= 57)%N (digits_fuel fuel n acc).
Proof.
  revert n acc. induction fuel as [|fuel IH]; intros n acc H; [done|]. cbn [digits_fuel].
  assert (Forall (fun c => 48 <= c <= 57)%N ((48 + n mod 10)%N :: acc)) as H'.
  { constructor; [|done]. pose proof (N.mod_lt n 10 ltac:(done)) as HM. revert HM. generalize (n mod 10)%N. intros; lia. }
  destruct (n / 10 =? 0)%N; [done|]. by apply IH.
Qed.
Lemma digits_num n : Forall (fun c => 48 <= c <= 57)%N (digits n).
Proof. apply digits_fuel_num. constructor. Qed.

Lemma count_token_inj (x y d e : codes) : Forall (fun c => 48 <= c <= 57)%N d -> Forall (fun c => 48 <= c <= 57)%N e ->
  str "header:" ++ x ++ str ":" ++ d = str "header:" ++ y ++ str ":" ++ e -> x = y /\ d = e.
Proof.
  intros Hd He E. apply app_inv_head in E. apply (f_equal reverse) in E. rewrite !reverse_app in E.
  change (reverse (str ":")) with [58%N] in E. rewrite <- !app_assoc in E.
  assert (forall l : codes, Forall (fun c => 48 <= c <= 57)%N l -> 58%N ∉ reverse l) as HN.
  { intros l Hl H. rewrite elem_of_reverse in H. rewrite Forall_forall in Hl. apply Hl in H. lia. }
  apply (cut_first 58) in E as [E1 E2]; [|by apply HN..]. split; by apply (inj reverse).
Qed.

Lemma is_safe_spec x : is_safe x = true <-> lower x ∈ safe_names.
Proof. unfold is_safe. rewrite bool_decide_eq_true. done. Qed.

Definition counted_keys (o : topts) (h : headers) : list codes :=
  if count_all o then h.*1 else filter (fun x => is_safe x = true) h.*1.
Lemma occ_spelled x (h : headers) : occ x h.*1 = spelled x h.
Proof.
  unfold occ, spelled. induction h as [|[k v] h IH]; [done|]. csimpl. rewrite !filter_cons. simpl.
  destruct (decide (k = x)); simpl; by rewrite IH.
Qed.
Lemma occ_safe x keys : occ x (filter (fun x => is_safe x = true) keys) = if is_safe x then occ x keys else 0.
Proof.
  unfold occ. induction keys as [|k keys IH]; [by destruct (is_safe x)|]. rewrite !(filter_cons _ k).
  destruct (decide (is_safe k = true)) as [Hk|Hk].
  - rewrite filter_cons. destruct (decide (k = x)) as [->|Hx]; [rewrite Hk in *; simpl; by rewrite IH|done].
  - destruct (decide (k = x)) as [->|Hx]; [destruct (is_safe x); done|done].
Qed.
Lemma counted_occ o h x n : (n = occ x (counted_keys o h) /\ 0 < n) <->
  (count_all o = true \/ lower x ∈ safe_names) /\ n = spelled x h /\ 0 < n.
Proof.
  unfold counted_keys. destruct (count_all o).
  - rewrite occ_spelled. naive_solver.
  - rewrite occ_safe, occ_spelled, <- is_safe_spec. destruct (is_safe x); [naive_solver|]. split; [lia|naive_solver].
Qed.

Lemma count_elem o h t : t ∈ count_tokens o h <->
  (exists x n, (count_all o = true \/ lower x ∈ safe_names) /\ n = spelled x h /\ 0 < n /\
     t = WStr (str "header:" ++ x ++ str ":" ++ digits (N.of_nat n))) \/
  (record_absence o = true /\ count_all o = true /\ exists x, 0 < spelled x h /\ lower x ∉ safe_names /\ t = WStr (str "noheader:" ++ x)).
Proof.
  unfold count_tokens. fold (counted_keys o h). destruct (bumps (counted_keys o h)) as [HN HE].
  rewrite elem_of_app, elem_of_list_fmap.
  assert ((exists y : codes * nat, t = WStr (str "header:" ++ y.1 ++ str ":" ++ digits (N.of_nat y.2)) /\ y ∈ foldl bump [] (counted_keys o h)) <->
    exists x n, (count_all o = true \/ lower x ∈ safe_names) /\ n = spelled x h /\ 0 < n /\
     t = WStr (str "header:" ++ x ++ str ":" ++ digits (N.of_nat n))) as ->.
  { split.
    - intros ([x n] & -> & H). apply HE in H. apply counted_occ in H as (H1 & H2 & H3). by exists x, n.
    - intros (x & n & H1 & H2 & H3 & ->). exists (x, n). split; [done|]. apply HE, counted_occ. done. }
  apply or_iff_compat_l. destruct (record_absence o); [|split; [intros H; by apply elem_of_nil in H|by intros [? _]]].
  rewrite elem_of_list_fmap. setoid_rewrite elem_of_list_filter. split.
  - intros ([x n] & -> & Hs & H). apply HE in H. apply counted_occ in H as (H1 & H2 & H3). simpl in Hs.
    assert (lower x ∉ safe_names) as Hx by (intros K; apply is_safe_spec in K; congruence).
    split; [done|]. destruct H1 as [H1|H1]; [|done]. split; [done|]. exists x. split; [lia|done].
  - intros (_ & H1 & x & H2 & H3 & ->). exists (x, spelled x h). split; [done|]. split.
    + simpl. destruct (is_safe x) eqn:E; [|done]. by apply is_safe_spec in E.
    + apply HE, counted_occ. split; [by left|done].
Qed.

Lemma wstr_inj a b : WStr a = WStr b -> a = b.
Proof. by intros [= ->]. Qed.
Lemma count_nodup o h : NoDup (count_tokens o h).
Proof.
  unfold count_tokens. fold (counted_keys o h). destruct (bumps (counted_keys o h)) as [HN HE].
  assert (forall l : list (codes * nat), NoDup l.*1 -> NoDup ((fun xn : codes * nat => WStr (str "header:" ++ xn.1 ++ str ":" ++ digits (N.of_nat xn.2))) <$> l)) as HA.
  { induction l as [|[x n] l IH]; intros HL; csimpl in *; [constructor|]. apply NoDup_cons in HL as [HL1 HL2]. constructor; [|by apply IH].
    intros H. apply elem_of_list_fmap in H as ([y m] & E & H). apply wstr_inj in E. cbn [fst snd] in E.
    apply count_token_inj in E as [-> _]; [|apply digits_num..]. apply HL1. apply elem_of_list_fmap. by exists (y, m). }
  apply NoDup_app. split_and!; [by apply HA| |].
  - intros t Ht Ht'. apply elem_of_list_fmap in Ht as (xn & -> & _). destruct (record_absence o); [|by apply elem_of_nil in Ht'].
    apply elem_of_list_fmap in Ht' as (yn & E & _). by apply wstr_inj in E.
  - destruct (record_absence o); [|constructor]. revert HN. generalize (foldl bump [] (counted_keys o h)) as l. clear HE HA.
    intros l HN. induction l as [|[x n] l IH]; [constructor|]. csimpl in HN. apply NoDup_cons in HN as [HL1 HL2]. rewrite filter_cons.
    destruct (decide (is_safe (x, n).1 = false)); [|by apply IH]. csimpl. constructor; [|by apply IH].
    intros H. apply elem_of_list_fmap in H as ([y m] & E & H). apply wstr_inj in E. injection E as ->.
    apply elem_of_list_filter in H as [_ H]. apply HL1. apply elem_of_list_fmap. by exists (y, m).
Qed.

(** Nothing is ever said about an absent header. *)
Lemma absence_ignored : ~ forall o h x, record_absence o = true -> x ∈ safe_names -> absent h x ->
  WStr (str "noheader:" ++ x) ∈ count_tokens o h.
Proof.
  intros H. specialize (H (Topts false true false false false) [] (str "date") eq_refl).
  assert (WStr (str "noheader:" ++ str "date") ∈ count_tokens (Topts false true false false false) []) as HE.
  { apply H; [apply (bool_decide_unpack _); by vm_compute|constructor]. }
  by apply elem_of_nil in HE.
Qed.

(** The order of the headers does not matter. *)
Lemma spelled_perm x h h' : h ≡ₚ h' -> spelled x h = spelled x h'.
Proof. intros H. unfold spelled. by rewrite H. Qed.
Lemma count_perm o h h' : h ≡ₚ h' -> count_tokens o h ≡ₚ count_tokens o h'.
Proof.
  intros H. apply NoDup_Permutation; [apply count_nodup..|]. intros t. rewrite !count_elem.
  by setoid_rewrite (fun x => spelled_perm x h h' H).
Qed.

(** ** The whole call *)

Lemma gapp_isnone g h : (gapp g h).2 = None <-> g.2 = None /\ h.2 = None.
Proof. destruct g as [a [e|]], h as [b e']; simpl; naive_solver. Qed.
Lemma gapp_raised g h : g.2 <> None -> gapp g h = g.
Proof. by destruct g as [a [e|]]. Qed.

Lemma convert_none ws e : (convert_to_bytes ws e).2 = None -> e = None.
Proof.
  induction ws as [|w ws IH]; [done|]. cbn [convert_to_bytes]. destruct w as [s|b|]; [destruct (utf8 s)|..]; try done.
  - intros H. apply gapp_isnone in H as [_ H]. by apply IH.
  - intros H. apply gapp_isnone in H as [_ H]. by apply IH.
Qed.
Lemma convert_ok ws bs : Forall2 (fun w b => (exists s, w = WStr s /\ utf8 s = Ok b) \/ w = WBytes b) ws bs ->
  forall e, convert_to_bytes ws e = (WBytes <$> bs, e).
Proof.
  intros H e. induction H as [|w b ws bs Hw _ IH]; [done|]. cbn [convert_to_bytes].
  destruct Hw as [(s & -> & ->)| -> ]; by rewrite IH.
Qed.

Lemma call_bytes U E basic only o a2b parts h texts vs e :
  tokenizer_call U E basic only o a2b parts h texts = (vs, e) -> Forall (fun v => exists b, v = WBytes b) vs.
Proof. unfold tokenizer_call. destruct (gapp _ _) as [ts e']. apply convert_bytes. Qed.

Lemma call_headers_raise U E basic only o a2b parts h texts texts' : (tokenize_headers U E o parts h).2 <> None ->
  tokenizer_call U E basic only o a2b parts h texts = tokenizer_call U E basic only o a2b parts h texts' /\
  (tokenizer_call U E basic only o a2b parts h texts).2 <> None.
Proof.
  intros H. unfold tokenizer_call. rewrite !gapp_raised by done. split; [done|].
  destruct (tokenize_headers U E o parts h) as [ts e]. intros H'. by apply convert_none in H'.
Qed.
Lemma call_body_raises U E basic only o a2b parts h texts : (tokenize_body a2b texts).2 <> None ->
  (tokenizer_call U E basic only o a2b parts h texts).2 <> None.
Proof.
  intros H. unfold tokenizer_call. destruct (gapp (tokenize_headers U E o parts h) (tokenize_body a2b texts)) as [ts e] eqn:EG.
  intros H'. apply convert_none in H' as ->.
  assert ((gapp (tokenize_headers U E o parts h) (tokenize_body a2b texts)).2 = None) as EN by by rewrite EG.
  by apply gapp_isnone in EN as [_ EN].
Qed.
Lemma call_ok U E basic only o a2b parts h texts hts bts bs :
  tokenize_headers U E o parts h = (hts, None) -> tokenize_body a2b texts = (bts, None) ->
  Forall2 (fun w b => (exists s, w = WStr s /\ utf8 s = Ok b) \/ w = WBytes b) (hts ++ bts) bs ->
  tokenizer_call U E basic only o a2b parts h texts = (WBytes <$> bs, None).
Proof. intros H1 H2 H3. unfold tokenizer_call. rewrite H1, H2. by apply convert_ok. Qed.

(** A section of the headers that raises makes all of it raise. *)
Lemma headers_none U E o parts h : (tokenize_headers U E o parts h).2 = None <->
  (gfor (crack_content_xyz U) parts).2 = None /\ (subject_tokens U E h).2 = None /\
  (gfor (field_tokens U E h) ADDRESS_HEADERS).2 = None /\ (summary_tokens U E h (sum_prefixes o) (sum_suffixes o)).2 = None /\
  (gfor (recipient_tokens h) [str "to"; str "cc"]).2 = None /\ (mailer_tokens U h).2 = None /\
  (if mine_received o then gfor (received_tokens U) (hget_all h (str "received")) else gok []).2 = None /\
  (message_id_tokens U h).2 = None.
Proof. unfold tokenize_headers. rewrite !gapp_isnone. simpl. tauto. Qed.
Lemma long_subject_raises U E basic only o a2b parts h texts v s a w b :
  first_is h (str "subject") v -> text_value v s -> decode_header E (FText s) = Ok [(WStr s, None)] ->
  s = a ++ w ++ b -> Forall (subject_word_char U) w -> 13%N ∉ w -> 12 < length w ->
  (tokenizer_call U E basic only o a2b parts h texts).2 <> None.
Proof.
  intros Hf Hv Hd Hs Hw Hr Hl.
  assert ((subject_tokens U E h).2 = Some TypeError) as HT.
  { destruct (subject_outcome U E h (FText s) [(WStr s, None)]) as [_ H].
    - right. exists v. split; [done|]. by rewrite (fetch_text v s Hv).
    - by left.
    - by repeat constructor.
    - apply H. left. by eapply long_word_bad. }
  apply (call_headers_raise U E basic only o a2b parts h texts texts). intros HN. apply headers_none in HN as (_ & HN & _). by rewrite HT in HN.
Qed.

(** Every header section that ends normally, in order. *)
Lemma headers_ok U E o parts h t1 t2 t3 t4 t5 t6 t7 t8 :
  gfor (crack_content_xyz U) parts = (t1, None) -> subject_tokens U E h = (t2, None) ->
  gfor (field_tokens U E h) ADDRESS_HEADERS = (t3, None) -> summary_tokens U E h (sum_prefixes o) (sum_suffixes o) = (t4, None) ->
  gfor (recipient_tokens h) [str "to"; str "cc"] = (t5, None) -> mailer_tokens U h = (t6, None) ->
  (if mine_received o then gfor (received_tokens U) (hget_all h (str "received")) else gok []) = (t7, None) ->
  message_id_tokens U h = (t8, None) ->
  tokenize_headers U E o parts h = (t1 ++ t2 ++ t3 ++ t4 ++ t5 ++ t6 ++ t7 ++ t8 ++ count_tokens o h, None).
Proof. intros H1 H2 H3 H4 H5 H6 H7 H8. unfold tokenize_headers. by rewrite H1, H2, H3, H4, H5, H6, H7, H8. Qed.

(** Summaries *)
Lemma summary_ok U E h addrs vt vc : values (str "to") h vt -> values (str "cc") h vc ->
  getaddresses E (fetch <$> (vt ++ vc)) = Ok addrs ->
  (forall s, exists ts, summary_tokens U E h true s = (ts ++ (summary_tokens U E h false s).1, (summary_tokens U E h false s).2) /\
     affix_summary (str "pfxlen:") 3 ((fun na => u_lower U na.2) <$> addrs) ts) /\
  (exists ts, summary_tokens U E h false true = (ts, None) /\
     affix_summary (str "sfxlen:") 5 ((fun na => u_lower U (reverse na.2)) <$> addrs) ts) /\
  summary_tokens U E h false false = ([], None).
Proof.
  intros Ht Hc Hg. unfold summary_tokens. rewrite (hget_all_values h _ vt eq_refl Ht), (hget_all_values h _ vc eq_refl Hc), <- fmap_app, Hg.
  split_and!; [intros s|..].
  - eexists. split; [|apply affix_spec]. rewrite !gapp_ok. simpl. done.
  - eexists. split; [|apply affix_spec]. done.
  - done.
Qed.
Lemma summary_err U E h e vt vc p s : values (str "to") h vt -> values (str "cc") h vc ->
  getaddresses E (fetch <$> (vt ++ vc)) = Err e -> p = true \/ s = true -> summary_tokens U E h p s = ([], Some e).
Proof.
  intros Ht Hc Hg Hps. unfold summary_tokens. rewrite (hget_all_values h _ vt eq_refl Ht), (hget_all_values h _ vc eq_refl Hc), <- fmap_app, Hg.
  destruct Hps as [-> | ->]; [done|]. by destruct p.
Qed.
