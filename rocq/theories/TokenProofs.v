(** * Proofs about tokenizing words and bodies *)
From Coq Require Import String Lia.
From Verif Require Import Py Regex RegexSpec RegexProofs StripModel StripSpec StripProofs CdbModel TokenModel TokenSpec.

(** ** Generators *)
Lemma gapp_ok ws h : gapp (gok ws) h = (ws ++ h.1, h.2).
Proof. by destruct h. Qed.

Lemma gfor_ok {X} (f : X -> gen) (R : X -> list pyword -> Prop) xs :
  Forall (fun x => exists ts, f x = (ts, None) /\ R x ts) xs ->
  exists tss, gfor f xs = (mjoin tss, None) /\ Forall2 R xs tss.
Proof.
  induction 1 as [|x xs (ts & E & HR) _ (tss & IH & HF)]; simpl.
  - exists []. split; [done|constructor].
  - exists (ts :: tss). rewrite E, IH. split; [done|by constructor].
Qed.

Lemma gfor_err {X} (f : X -> gen) (P : exn -> Prop) xs :
  (forall x e, x ∈ xs -> (f x).2 = Some e -> P e) ->
  Exists (fun x => (f x).2 <> None) xs -> exists e, (gfor f xs).2 = Some e /\ P e.
Proof.
  intros HP HE. induction xs as [|x xs IH]; [by apply Exists_nil in HE|]. simpl.
  destruct (f x) as [ts [e|]] eqn:E; simpl.
  - exists e. split; [done|]. apply (HP x e); [left|by rewrite E].
  - apply Exists_cons in HE as [HE|HE]; [by rewrite E in HE|].
    destruct IH as (e & IH & He); [|done|].
    + intros y e Hy. apply HP. by right.
    + destruct (gfor f xs) as [vs e']. simpl in *. by exists e.
Qed.

(** ** Words *)

Lemma skip_token_spec w : w <> [] -> skipped w (skip_token w).
Proof.
  intros Hne. destruct w as [|c rest]; [done|]. set (L := length (c :: rest)).
  exists c, rest, (L / 10)%nat. split_and!; [done| | |].
  - pose proof (Nat.div_mod L 10 ltac:(lia)). pose proof (Nat.mod_upper_bound L 10 ltac:(lia)). lia.
  - pose proof (Nat.div_mod L 10 ltac:(lia)). pose proof (Nat.mod_upper_bound L 10 ltac:(lia)). lia.
  - assert (E : tens L = (10 * N.of_nat (L / 10))%N).
    { unfold tens. rewrite N.mul_comm. f_equal. by rewrite Nat2N.inj_div. }
    unfold skip_token. fold L. by rewrite E.
Qed.

Lemma existsb_dot w : existsb (N.eqb 46) w = true <-> 46%N ∈ w.
Proof.
  rewrite existsb_exists. split.
  - intros (c & H & E). apply N.eqb_eq in E as <-. by apply elem_of_list_In.
  - intros H. exists 46%N. split; [by apply elem_of_list_In|done].
Qed.
Lemma existsb_high w : existsb (fun c => (128 <=? c)%N) w = true <-> Exists (fun c => (128 <= c)%N) w.
Proof.
  rewrite existsb_exists, Exists_exists. setoid_rewrite elem_of_list_In. setoid_rewrite N.leb_le. done.
Qed.

Lemma good_word_tokens w : ~ bad_word w -> exists ts, tokenize_word (WBytes w) = (ts, None) /\ word_tokens w ts.
Proof.
  intros HB. unfold tokenize_word, word_tokens, SKIP_MAX_WORD_SIZE. cbn [wcodes].
  destruct (Nat.ltb_spec (length w) 3); [exists []; split; [done|by left]|].
  destruct (Nat.leb_spec (length w) 12); [exists [WBytes w]; split; [done|by right; left]|].
  assert (Hne : w <> []) by (intros ->; simpl in *; lia).
  assert (E1 : (length w <? 40)%nat && existsb (N.eqb 46) w = false).
  { apply not_true_iff_false. intros H1. apply andb_true_iff in H1 as [H1 H2]. apply Nat.ltb_lt in H1.
    apply existsb_dot in H2. apply HB. split; [lia|]. right. by split. }
  assert (E2 : existsb (fun c => (128 <=? c)%N) w = false).
  { apply not_true_iff_false. intros H1. apply existsb_high in H1. apply HB. split; [lia|]. by left. }
  rewrite E1, E2. eexists. split; [done|]. right; right. split; [lia|]. eexists. split; [by apply skip_token_spec|done].
Qed.

Lemma bad_word_raises w : bad_word w -> exists ts, tokenize_word (WBytes w) = (ts, Some TypeError) /\
  (((length w < 40)%nat /\ 46%N ∈ w /\ ts = []) \/
   (~ ((length w < 40)%nat /\ 46%N ∈ w) /\ exists t, skipped w t /\ ts = [t])).
Proof.
  intros [HL HB]. unfold tokenize_word, SKIP_MAX_WORD_SIZE. cbn [wcodes].
  destruct (Nat.ltb_spec (length w) 3); [lia|]. destruct (Nat.leb_spec (length w) 12); [lia|].
  assert (Hne : w <> []) by (intros ->; simpl in *; lia).
  destruct ((length w <? 40)%nat && existsb (N.eqb 46) w) eqn:E1.
  - apply andb_true_iff in E1 as [H1 H2]. apply Nat.ltb_lt in H1. apply existsb_dot in H2.
    exists []. split; [done|]. left. done.
  - assert (HN : ~ ((length w < 40)%nat /\ 46%N ∈ w)).
    { intros [H1 H2]. apply not_true_iff_false in E1. apply E1. apply andb_true_iff.
      split; [by apply Nat.ltb_lt|by apply existsb_dot]. }
    destruct HB as [HB|HB]; [|done]. apply existsb_high in HB. rewrite HB. eexists. split; [done|].
    right. split; [done|]. eexists. split; [by apply skip_token_spec|done].
Qed.

Lemma text_word w : (length w < 3 -> tokenize_word (WStr w) = ([], None)) /\
  (3 <= length w <= 12 -> tokenize_word (WStr w) = ([WStr w], None)) /\
  (12 < length w -> (tokenize_word (WStr w)).2 = Some TypeError).
Proof.
  unfold tokenize_word, SKIP_MAX_WORD_SIZE. cbn [wcodes].
  destruct (Nat.ltb_spec (length w) 3); [split_and!; [done|lia..]|].
  destruct (Nat.leb_spec (length w) 12); [split_and!; [lia|done|lia]|].
  split_and!; [lia|lia|]. intros _. by destruct (length w <? 40)%nat.
Qed.

Global Instance bad_word_dec w : Decision (bad_word w).
Proof. unfold bad_word. apply _. Defined.

(** ** Splitting into words *)

Lemma words_from_spec : forall text w, Forall (fun c => ~ blank c) w -> words (w ++ text) (words_from w text).
Proof.
  induction text as [|c text IH]; intros w Hw; cbn [words_from].
  - destruct w as [|d w]; [constructor|]. apply words_word; [done|done|done|constructor].
  - destruct (is_space c) eqn:Ec.
    + apply is_space_spec in Ec. specialize (IH [] (Forall_nil_2 _)). simpl in IH. destruct w as [|d w].
      * by apply words_blank.
      * apply (words_word (d :: w)); [done|done| |by apply words_blank]. by intros ? ? [= <- _].
    + apply is_space_false in Ec. specialize (IH (w ++ [c])). rewrite <- app_assoc in IH. apply IH.
      apply Forall_app. split; [done|by apply Forall_singleton].
Qed.

Lemma words_of_spec text : words text (words_of text).
Proof. apply (words_from_spec text []). constructor. Qed.

Lemma words_from_app : forall w v text, Forall (fun c => ~ blank c) w -> words_from v (w ++ text) = words_from (v ++ w) text.
Proof.
  induction w as [|c w IH]; intros v text H; [by rewrite app_nil_r|]. inversion H as [|? ? Hc Hw]; subst.
  cbn [app words_from]. apply is_space_false in Hc. rewrite Hc, IH by done. by rewrite <- app_assoc.
Qed.

Lemma words_unique text ws : words text ws -> ws = words_of text.
Proof.
  unfold words_of. induction 1 as [|c text ws Hc _ IH|w text ws Hne Hw Ht _ IH].
  - done.
  - cbn [words_from]. apply is_space_spec in Hc. by rewrite Hc.
  - rewrite words_from_app by done. simpl. rewrite IH. destruct text as [|c text].
    + destruct w; [done|]. done.
    + cbn [words_from]. specialize (Ht c text eq_refl). apply is_space_spec in Ht. rewrite Ht. by destruct w.
Qed.

Lemma tokenize_text_word w : (let n := length w in if (n <? 3)%nat then gok []
    else if (n <=? SKIP_MAX_WORD_SIZE)%nat then gok [WBytes w] else tokenize_word (WBytes w)) = tokenize_word (WBytes w).
Proof.
  cbv zeta. unfold tokenize_word at 2. cbn [wcodes]. destruct (length w <? 3)%nat; [done|].
  destruct (length w <=? SKIP_MAX_WORD_SIZE)%nat eqn:E; [done|]. unfold tokenize_word. cbn [wcodes]. rewrite E.
  destruct (length w <? 3)%nat eqn:E3; [|done]. apply Nat.ltb_lt in E3. apply Nat.leb_gt in E.
  unfold SKIP_MAX_WORD_SIZE in E. lia.
Qed.

Lemma gfor_ext {X} (f h : X -> gen) xs : (forall x, f x = h x) -> gfor f xs = gfor h xs.
Proof. intros H. induction xs as [|x xs IH]; [done|]. simpl. by rewrite H, IH. Qed.

Lemma tokenize_text_eq text : tokenize_text text = gfor (fun w => tokenize_word (WBytes w)) (words_of text).
Proof. apply gfor_ext. intros w. apply tokenize_text_word. Qed.

Lemma tokenize_text_good text ws : words text ws -> Forall (fun w => ~ bad_word w) ws ->
  exists tss, tokenize_text text = (mjoin tss, None) /\ Forall2 word_tokens ws tss.
Proof.
  intros HW HF. rewrite tokenize_text_eq, <- (words_unique _ _ HW). apply gfor_ok.
  eapply Forall_impl; [exact HF|]. intros w Hw. by apply good_word_tokens.
Qed.

Lemma tokenize_word_error w e : (tokenize_word (WBytes w)).2 = Some e -> e = TypeError /\ bad_word w.
Proof.
  intros H. destruct (decide (bad_word w)) as [HB|HB].
  - split; [|done]. destruct (bad_word_raises w HB) as (ts & E & _). rewrite E in H. by injection H.
  - destruct (good_word_tokens w HB) as (ts & E & _). by rewrite E in H.
Qed.

Lemma tokenize_text_bad text ws : words text ws -> ~ Forall (fun w => ~ bad_word w) ws ->
  (tokenize_text text).2 = Some TypeError.
Proof.
  intros HW HF. rewrite tokenize_text_eq, <- (words_unique _ _ HW).
  destruct (gfor_err (fun w => tokenize_word (WBytes w)) (eq TypeError) ws) as (e & E & <-); [| |done].
  - intros w e _ H. by apply tokenize_word_error in H as [-> _].
  - apply not_Forall_Exists in HF; [|apply _]. eapply Exists_impl; [exact HF|]. intros w Hw.
    destruct (decide (bad_word w)) as [HB|]; [|by destruct Hw].
    destruct (bad_word_raises w HB) as (ts & E & _). by rewrite E.
Qed.

(** ** Substitutions *)

Lemma sub_with_text_spec r P : (forall x w y, matches r x w y <-> P x w y) -> forall text,
  (~ occurs P text -> sub_with_text r text = Ok text) /\ (occurs P text -> sub_with_text r text = Err TypeError).
Proof.
  intros H text. unfold sub_with_text. change (start text) with (at_ [] text). rewrite rsearch_at.
  pose proof (rsearch_spec r text []) as HS. destruct (rsearch_from r (reverse []) text) as [[[c d] g]|].
  - destruct HS as (k & w & y & (Es & M1 & _) & _). split; [|done]. intros HN. exfalso. apply HN.
    exists k, w, y. split; [done|]. by apply H.
  - split; [done|]. intros (k & w & y & Es & HP). exfalso. apply (HS k w y Es). by apply H.
Qed.

Lemma sub_with_text_cases r P : (forall x w y, matches r x w y <-> P x w y) -> forall text,
  (sub_with_text r text = Ok text /\ ~ occurs P text) \/ (sub_with_text r text = Err TypeError /\ occurs P text).
Proof.
  intros H text. destruct (sub_with_text_spec r P H text) as [H1 H2]. unfold sub_with_text in *.
  destruct (rsearch r (start text)) eqn:E.
  - right. split; [done|]. pose proof (rsearch_spec r text []) as HS. change (start text) with (at_ [] text) in E.
    rewrite rsearch_at in E. rewrite E in HS. destruct p as [[c d] g].
    destruct HS as (k & w & y & (Es & M1 & _) & _). exists k, w, y. split; [done|]. by apply H.
  - left. split; [done|]. intros HO. by specialize (H2 HO).
Qed.

Lemma is_num_spec c : is_num c = true <-> (48 <= c <= 57)%N.
Proof. unfold is_num. by rewrite andb_true_iff, !N.leb_le. Qed.

Lemma numeric_entity_spec x w y : matches numeric_entity_re x w y <-> numeric_entity x w y.
Proof.
  unfold numeric_entity_re, numeric_entity. split.
  - intros (u1 & v1 & -> & H1 & u2 & v2 & -> & H2 & H3). apply matches_lit in H1 as ->. cbn [matches] in H2.
    apply matches_plus_chars in H2 as [H2 H2']. apply matches_ch in H3 as ->. exists u2.
    split_and!; [done|done|]. by apply (forallb_Forall _ _ is_num_spec).
  - intros (ds & -> & H1 & H2). eexists (str "&#"), _. split_and!; [done|by apply matches_lit|].
    exists ds, (str ";"). split_and!; [done| |by apply matches_ch]. apply matches_plus_chars. split; [done|].
    by apply (forallb_Forall _ _ is_num_spec).
Qed.

Lemma breaking_entity_spec x w y : matches breaking_entity_re x w y <-> breaking_entity x w y.
Proof.
  unfold breaking_entity_re, breaking_entity. rewrite !elem_of_cons, elem_of_nil. split.
  - intros [H|(u1 & v1 & -> & H1 & u2 & v2 & -> & H2 & H3)]; [apply matches_lit in H; tauto|].
    apply matches_ch in H1 as ->. apply matches_ch in H3 as ->.
    destruct H2 as [H2|H2]; apply matches_lit in H2 as ->; tauto.
  - intros [-> |[-> |[-> |[]]]].
    + left. by apply matches_lit.
    + right. eexists (str "<"), _. split_and!; [done|by apply matches_ch|]. eexists (str "p"), _.
      split_and!; [done|left; by apply matches_lit|by apply matches_ch].
    + right. eexists (str "<"), _. split_and!; [done|by apply matches_ch|]. eexists (str "br"), _.
      split_and!; [done|right; by apply matches_lit|by apply matches_ch].
Qed.

Lemma html_tag_spec x w y : matches html_re x w y <-> html_tag x w y.
Proof.
  unfold html_re, html_tag. set (p := fun c => is_space c || (c =? 60)%N || (c =? 62)%N).
  assert (Hp : forall c, p c = true <-> blank c \/ c = 60%N \/ c = 62%N).
  { intros c. unfold p. rewrite !orb_true_iff, is_space_spec, !N.eqb_eq. tauto. }
  split.
  - intros (u1 & v1 & -> & H1 & u2 & v2 & -> & [-> H2] & u3 & v3 & -> & H3 & H4).
    apply matches_ch in H1 as ->. apply matches_upto_chars in H3 as [H3 H3']. apply nongt_spec in H3'.
    apply matches_ch in H4 as ->. destruct u3 as [|c t].
    + exfalso. apply (H2 [62%N] y); [done|]. exists 62%N. split; [done|]. apply Hp. tauto.
    + assert (Hc : ~ (blank c \/ c = 60%N \/ c = 62%N)).
      { intros Hc. apply (H2 [c] (t ++ [62%N] ++ y)); [by simpl; rewrite <- ?app_assoc|]. exists c. split; [done|].
        by apply Hp. }
      exists c, t. split_and!; [done|tauto|tauto|done|done].
  - intros (c & t & -> & H1 & H2 & H3 & H4).
    eexists (str "<"), _. split_and!; [done|by apply matches_ch|].
    exists [], (c :: t ++ str ">"). split_and!; [done| |].
    + split; [done|]. intros v z E (d & -> & Hd). injection E as <- _. apply Hp in Hd.
      destruct Hd as [Hd|[Hd|Hd]]; [done|done|]. subst c. apply H3. left.
    + exists (c :: t), (str ">"). split_and!; [done| |by apply matches_ch]. apply matches_upto_chars.
      split; [done|]. by apply nongt_spec.
Qed.

(** ** Virus clues *)

Lemma word_at_end_spec x : word_at_end x = true <-> ends_with_word x.
Proof.
  unfold ends_with_word. induction x as [|c x _] using rev_ind.
  - split; [done|]. intros (x' & c & E & _). by destruct x'.
  - rewrite word_at_end_snoc, is_word_spec. split.
    + intros H. by exists x, c.
    + intros (x' & d & E & H). by apply app_inj_tail in E as [_ ->].
Qed.
Lemma word_at_start_spec y : word_at_start y = true <-> begins_with_word y.
Proof.
  unfold begins_with_word. destruct y as [|c y]; simpl.
  - split; [done|]. by intros (c & y' & E & _).
  - rewrite is_word_spec. split; [by exists c, y|]. by intros (d & y' & [= -> _] & H).
Qed.

Lemma matches_quote x w y : matches rquote x w y <-> quote w.
Proof.
  unfold rquote, quote. rewrite matches_opt, !elem_of_cons, elem_of_nil. cbn [matches]. split.
  - intros [(c & -> & H)| -> ]; [|by left]. apply orb_true_iff in H. rewrite !N.eqb_eq in H.
    destruct H as [-> | ->]; [by right; left|by right; right; left].
  - intros [-> |[-> |[-> |[]]]]; [by right|left; by exists 39%N|left; by exists 34%N].
Qed.

Lemma wordb_before x s : head_word s = true -> (matches RWordb x [] s <-> ~ ends_with_word x).
Proof.
  intros H. cbn [matches]. rewrite <- word_at_end_spec. change (word_at_start s) with (head_word s). rewrite H.
  destruct (word_at_end x); naive_solver.
Qed.

Lemma str_snoc_word x s c y : word_char c ->
  matches RWordb (x ++ s ++ [c]) [] y <-> ~ begins_with_word y.
Proof.
  intros H. apply is_word_spec in H. cbn [matches]. rewrite <- word_at_start_spec, app_assoc, word_at_end_snoc, H.
  destruct (word_at_start y); naive_solver.
Qed.

Lemma virus_spec x w y : matches virus_re x w y <-> virus_clue x w y.
Proof.
  unfold virus_re, virus_clue. rewrite !matches_alt. split.
  - intros [H|[H|H]].
    + left. destruct H as (u1 & v1 & -> & H1 & u2 & v2 & -> & H2 & u3 & v3 & -> & H3 & u4 & v4 & -> & H4 & H5).
      apply matches_ch in H1 as ->. apply matches_spaces in H3. pose proof H5 as [-> _].
      exists u2, u3, u4. split_and!; [by rewrite app_nil_r| |done| |].
      * rewrite !elem_of_cons, elem_of_nil. apply matches_opt in H2 as [H2| -> ]; [|by left].
        apply matches_ch in H2 as ->. by right; left.
      * rewrite !elem_of_cons, elem_of_nil. destruct H4 as [H4|H4]; apply matches_lit in H4 as ->; tauto.
      * destruct H4 as [H4|H4]; apply matches_lit in H4 as ->.
        -- change (str "script") with (str "scrip" ++ [116%N]) in H5. by apply (str_snoc_word _ (str "scrip") 116%N y) in H5; [|right; right; left].
        -- change (str "iframe") with (str "ifram" ++ [101%N]) in H5. by apply (str_snoc_word _ (str "ifram") 101%N y) in H5; [|right; right; left].
    + right; left. destruct H as (u1 & v1 & -> & H1 & u2 & v2 & -> & H2 & u3 & v3 & -> & H3 & H4).
      apply matches_lit in H2 as ->. apply matches_quote in H3. apply matches_lit in H4 as ->.
      pose proof H1 as [-> _]. exists u3. split_and!; [done|done|]. by apply wordb_before in H1.
    + right; right. destruct H as (u1 & v1 & -> & H1 & u2 & v2 & -> & H2 & u3 & v3 & -> & H3 & u4 & v4 & -> & H4 & H5).
      apply matches_ch in H3 as ->. apply matches_quote in H4. apply matches_ch in H5 as ->.
      pose proof H1 as [-> _].
      exists u2, u4. split_and!; [done| |done|].
      * rewrite !elem_of_cons, elem_of_nil. destruct H2 as [H2|H2]; apply matches_lit in H2 as ->; tauto.
      * destruct H2 as [H2|H2]; apply matches_lit in H2 as ->; by apply wordb_before in H1.
  - intros [H|[H|H]].
    + left. destruct H as (sl & sp & name & -> & H1 & H2 & H3 & H4).
      eexists (str "<"), _. split_and!; [done|by apply matches_ch|].
      exists sl, (sp ++ name). split_and!; [done| |].
      { rewrite !elem_of_cons, elem_of_nil in H1. destruct H1 as [-> |[-> |[]]]; apply matches_opt; [by right|].
        left. by apply matches_ch. }
      exists sp, name. split_and!; [done|by apply matches_spaces|].
      exists name, []. split_and!; [by rewrite app_nil_r| |].
      { rewrite !elem_of_cons, elem_of_nil in H3. destruct H3 as [-> |[-> |[]]];
          [left|right]; by apply matches_lit. }
      rewrite !elem_of_cons, elem_of_nil in H3. destruct H3 as [-> |[-> |[]]].
      * apply (str_snoc_word _ (str "scrip") 116%N y); [by right; right; left|done].
      * apply (str_snoc_word _ (str "ifram") 101%N y); [by right; right; left|done].
    + right; left. destruct H as (q & -> & H1 & H2).
      eexists [], _. split_and!; [done|by apply wordb_before|]. rewrite app_nil_r.
      eexists (str "src="), _. split_and!; [done|by apply matches_lit|].
      exists q, (str "cid:"). split_and!; [done|by apply matches_quote|by apply matches_lit].
    + right; right. destruct H as (name & q & -> & H1 & H2 & H3).
      eexists [], _. split_and!; [done| |].
      { apply wordb_before; [|done]. rewrite !elem_of_cons, elem_of_nil in H1. by destruct H1 as [-> |[-> |[]]]. }
      rewrite app_nil_r. exists name, (str "=" ++ q ++ str "0"). split_and!; [done| |].
      { rewrite !elem_of_cons, elem_of_nil in H1. destruct H1 as [-> |[-> |[]]]; [left|right]; by apply matches_lit. }
      eexists (str "="), _. split_and!; [done|by apply matches_ch|].
      exists q, (str "0"). split_and!; [done|by apply matches_quote|by apply matches_ch].
Qed.

Lemma virus_nonempty x w y : virus_clue x w y -> w <> [].
Proof. intros [(sl & sp & n & -> & _)|[(q & -> & _)|(n & q & -> & H & _)]]; [done|done|].
  intros E. apply app_eq_nil in E as [_ E]. done. Qed.

Lemma not_blank_in c : c ∈ str "si/" -> ~ blank c.
Proof.
  change (str "si/") with [115; 105; 47]%N. unfold blank. rewrite !elem_of_cons, !elem_of_nil. intros H H'. lia.
Qed.

Lemma name_unique n n' y y' : n ∈ [str "script"; str "iframe"] -> n' ∈ [str "script"; str "iframe"] ->
  n ++ y = n' ++ y' -> n = n'.
Proof.
  rewrite !elem_of_cons, !elem_of_nil. intros [-> |[-> |[]]] [-> |[-> |[]]] E; done.
Qed.
Lemma name_head n : n ∈ [str "script"; str "iframe"] -> exists c r, n = c :: r /\ ~ blank c /\ c <> 47%N.
Proof.
  rewrite !elem_of_cons, !elem_of_nil. intros [-> |[-> |[]]]; eexists _, _; (split; [done|]);
    (split; [apply not_blank_in|done]); apply (bool_decide_unpack _); by vm_compute.
Qed.

Lemma blanks_then_name sp n y sp' n' y' : Forall blank sp -> Forall blank sp' ->
  n ∈ [str "script"; str "iframe"] -> n' ∈ [str "script"; str "iframe"] ->
  sp ++ n ++ y = sp' ++ n' ++ y' -> sp = sp' /\ n = n'.
Proof.
  intros H H' Hn Hn' E. pose proof Hn as (c & r & En & Hc & _)%name_head. pose proof Hn' as (c' & r' & En' & Hc' & _)%name_head.
  subst n n'. destruct (run_unique blank sp sp' c c' (r ++ y) (r' ++ y') H H' Hc Hc' E) as (-> & <- & E').
  split; [done|]. apply (name_unique _ _ y y' Hn Hn'). simpl. by rewrite E'.
Qed.

Lemma no_slash_first sp n y z : Forall blank sp -> n ∈ [str "script"; str "iframe"] -> sp ++ n ++ y <> 47%N :: z.
Proof.
  intros H Hn E. destruct H as [|c sp Hc _].
  - destruct (name_head _ Hn) as (c & r & -> & _ & Hc). by injection E.
  - injection E as -> _. by apply (not_blank_in 47); [apply (bool_decide_unpack _); vm_compute|].
Qed.

Lemma quote_unique q q' z z' c c' : quote q -> quote q' -> c <> 39%N -> c <> 34%N -> c' <> 39%N -> c' <> 34%N ->
  q ++ c :: z = q' ++ c' :: z' -> q = q'.
Proof.
  unfold quote. rewrite !elem_of_cons, !elem_of_nil. change (str "'") with [39%N].
  intros [-> |[-> |[-> |[]]]] [-> |[-> |[-> |[]]]] H1 H2 H3 H4 E; simpl in E; try done; by injection E as E _; subst.
Qed.

Lemma virus_functional : functional virus_clue.
Proof.
  intros x w y w' y' E
    [(sl & sp & n & -> & H1 & H2 & H3 & _)|[(q & -> & H1 & _)|(n & q & -> & H1 & H2 & _)]]
    [(sl' & sp' & n' & -> & H1' & H2' & H3' & _)|[(q' & -> & H1' & _)|(n' & q' & -> & H1' & H2' & _)]].
  - rewrite <- !app_assoc in E. apply app_inv_head in E. rewrite !elem_of_cons, !elem_of_nil in H1, H1'.
    destruct H1 as [-> |[-> |[]]], H1' as [-> |[-> |[]]].
    + by destruct (blanks_then_name _ _ _ _ _ _ H2 H2' H3 H3' E) as [-> ->].
    + exfalso. exact (no_slash_first _ _ _ _ H2 H3 E).
    + exfalso. symmetry in E. exact (no_slash_first _ _ _ _ H2' H3' E).
    + apply app_inv_head in E. by destruct (blanks_then_name _ _ _ _ _ _ H2 H2' H3 H3' E) as [-> ->].
  - done.
  - rewrite !elem_of_cons, !elem_of_nil in H1'. by destruct H1' as [-> |[-> |[]]].
  - done.
  - rewrite <- !app_assoc in E. apply app_inv_head in E. by rewrite (quote_unique q q' _ _ 99 99 H1 H1' ltac:(done) ltac:(done) ltac:(done) ltac:(done) E).
  - rewrite !elem_of_cons, !elem_of_nil in H1'. by destruct H1' as [-> |[-> |[]]].
  - rewrite !elem_of_cons, !elem_of_nil in H1. by destruct H1 as [-> |[-> |[]]].
  - rewrite !elem_of_cons, !elem_of_nil in H1. by destruct H1 as [-> |[-> |[]]].
  - rewrite !elem_of_cons, !elem_of_nil in H1. rewrite !elem_of_cons, !elem_of_nil in H1'.
    destruct H1 as [-> |[-> |[]]], H1' as [-> |[-> |[]]]; try done; rewrite <- !app_assoc in E; do 2 apply app_inv_head in E;
      by rewrite (quote_unique q q' _ _ 48 48 H2 H2' ltac:(done) ltac:(done) ltac:(done) ltac:(done) E).
Qed.

Lemma leftmost_iff (P Q : codes -> codes -> codes -> Prop) x s k w y : (forall x w y, P x w y <-> Q x w y) ->
  leftmost P x s k w y -> leftmost Q x s k w y.
Proof.
  intros H (Es & HP & HL). split_and!; [done|by apply H|]. intros x' w' y' Es' HQ. apply (HL x' w' y' Es'). by apply H.
Qed.

Lemma rfindall_found r P : (forall x w y, matches r x w y <-> P x w y) -> (forall x w y, P x w y -> w <> []) ->
  forall fuel x s, length s < fuel -> found P x s (rfindall fuel r (at_ x s)).
Proof.
  intros HM HN. induction fuel as [|fuel IH]; intros x s Hl; [lia|]. cbn [rfindall]. rewrite rsearch_at.
  pose proof (rsearch_spec r s x) as HS. destruct (rsearch_from r (reverse x) s) as [[[c d] g]|].
  - destruct HS as (k & w & y & HL & -> & -> & _). rewrite app_assoc, between_at.
    apply (leftmost_iff _ P) in HL; [|done]. rewrite <- app_assoc. apply (found_next P x s k w y); [done|].
    apply IH. destruct HL as (-> & HP & _). rewrite !app_length in Hl. apply HN in HP. destruct w; [done|]. simpl in Hl. lia.
  - constructor. intros k w y Es HP. apply (HS k w y Es). by apply HM.
Qed.

Lemma findall_found r P text : (forall x w y, matches r x w y <-> P x w y) -> (forall x w y, P x w y -> w <> []) ->
  found P [] text (findall r text).
Proof. intros H1 H2. apply rfindall_found; [done|done|lia]. Qed.

Lemma found_det P : functional P -> forall x s ws ws', found P x s ws -> found P x s ws' -> ws = ws'.
Proof.
  intros HF x s ws ws' H. revert ws'. induction H as [x s HN|x s k w y ws HL _ IH]; intros ws' H'; inversion H'; subst.
  - done.
  - exfalso. by eapply leftmost_not_nowhere.
  - exfalso. by eapply leftmost_not_nowhere.
  - match goal with HL' : leftmost P x s _ _ _ |- _ => destruct (leftmost_unique _ _ _ _ _ _ _ _ _ HF HL HL') as (<- & <- & <-) end.
    f_equal. by apply IH.
Qed.

(** ** Lower case *)
Lemma blower_spec b : Forall2 lower_of b (blower b).
Proof.
  unfold blower. induction b as [|c b IH]; [constructor|]. rewrite fmap_cons. constructor; [|done]. unfold lower_of.
  destruct (_ && _) eqn:E.
  - apply andb_true_iff in E as [H1 H2]. apply N.leb_le in H1, H2. by left.
  - right. split; [|done]. intros [H1 H2]. apply N.leb_le in H1, H2. by rewrite H1, H2 in E.
Qed.
Lemma lower_unique b t : Forall2 lower_of b t -> t = blower b.
Proof.
  intros H. pose proof (blower_spec b) as H'. revert H'. generalize (blower b). induction H as [|c d b t Hc _ IH]; intros t' H'.
  - by inversion H'.
  - inversion H' as [|? d' ? t'' Hc' Ht']; subst. rewrite (IH _ Ht'). f_equal.
    destruct Hc as [[? ->]|[? ->]], Hc' as [[? ->]|[? ->]]; done.
Qed.

(** ** Text parts *)
Lemma left_over_exists t : exists t' urls, left_over t t' urls.
Proof.
  destruct (url_strip t) as (t1 & urls & tss & _ & H1 & _). destruct (style_strip t1) as (t2 & s2 & _ & H2).
  destruct (comment_strip t2) as (t3 & s3 & _ & H3). destruct (noframes_strip t3) as (t' & s4 & _ & H4).
  exists t', urls. by exists t1, t2, t3, s2, s3, s4.
Qed.

Lemma left_over_det t t' urls t'' urls' : left_over t t' urls -> left_over t t'' urls' -> t' = t'' /\ urls = urls'.
Proof.
  intros (t1 & t2 & t3 & s2 & s3 & s4 & H1 & H2 & H3 & H4) (t1' & t2' & t3' & s2' & s3' & s4' & H1' & H2' & H3' & H4').
  destruct (stripped_det _ _ url_functional at_once_functional _ _ _ _ _ _ H1 H1') as [<- <-].
  destruct (stripped_det _ _ style_start_functional style_end_functional _ _ _ _ _ _ H2 H2') as [<- _].
  destruct (stripped_det _ _ comment_start_functional comment_end_functional _ _ _ _ _ _ H3 H3') as [<- _].
  by destruct (stripped_det _ _ noframes_start_functional noframes_end_functional _ _ _ _ _ _ H4 H4') as [<- _].
Qed.

(** The crackers, once no uuencoded section begins in the text. *)
Lemma crack_spec t k : ~ occurs uu_begin t -> exists t' urls (tss : list (list pyword)), left_over t t' urls /\
  Forall2 url_token_list urls tss /\ crack crackers t k = gapp (gok (mjoin tss)) (k t').
Proof.
  intros HU. destruct (url_strip t) as (t1 & urls & tss & E1 & H1 & HF). destruct (style_strip t1) as (t2 & s2 & E2 & H2).
  destruct (comment_strip t2) as (t3 & s3 & E3 & H3). destruct (noframes_strip t3) as (t' & s4 & E4 & H4).
  exists t', urls, tss. split_and!; [by exists t1, t2, t3, s2, s3, s4|done|].
  unfold crackers. cbn [crack]. rewrite (proj1 (uu_strip t) HU), E1, E2, E3, E4. by destruct (k t').
Qed.

Lemma occurs_cases r P : (forall x w y, matches r x w y <-> P x w y) -> forall text, occurs P text \/ ~ occurs P text.
Proof. intros H text. destruct (sub_with_text_cases r P H text); tauto. Qed.

Definition clue_token (w : codes) : pyword := WStr (str "virus:" ++ repr_bytes w).

Lemma payload_cases b :
  (exists ts, tokenize_payload b = (ts, None) /\ body_tokens b ts /\ tokenizable b) \/
  ((tokenize_payload b).2 = Some TypeError /\ ~ tokenizable b).
Proof.
  unfold tokenize_payload.
  destruct (sub_with_text_cases _ _ numeric_entity_spec b) as [[-> HN]|[-> HN]].
  2:{ right. split; [done|]. intros (t & t' & urls & ws & _ & _ & _ & H & _). done. }
  set (t := blower b).
  destruct (occurs_cases _ _ uu_begin_spec t) as [HU|HU].
  { right. split.
    - unfold crackers. cbn [crack]. by rewrite (proj2 (uu_strip t) HU).
    - intros (t0 & t' & urls & ws & HL & _ & _ & _ & H & _). apply lower_unique in HL as ->. done. }
  set (k := fun text => match sub_with_text breaking_entity_re text with
    | Err e => gerr e
    | Ok text => match sub_with_text html_re text with Err e => gerr e | Ok text => tokenize_text text end end).
  destruct (crack_spec t k HU) as (t' & urls & tss & HLO & HUT & EC). rewrite EC.
  assert (HT : forall t0 t0' urls0, Forall2 lower_of b t0 -> left_over t0 t0' urls0 -> t0' = t').
  { intros t0 t0' urls0 H0 H1. apply lower_unique in H0 as ->. by destruct (left_over_det _ _ _ _ _ H1 HLO). }
  unfold k. clear EC k.
  destruct (sub_with_text_cases _ _ breaking_entity_spec t') as [[-> HB]|[-> HB]].
  2:{ right. split; [done|]. intros (t0 & t0' & urls0 & ws & H1 & H2 & _ & _ & _ & H & _).
      rewrite (HT _ _ _ H1 H2) in H. done. }
  destruct (sub_with_text_cases _ _ html_tag_spec t') as [[-> HH]|[-> HH]].
  2:{ right. split; [done|]. intros (t0 & t0' & urls0 & ws & H1 & H2 & _ & _ & _ & _ & H & _).
      rewrite (HT _ _ _ H1 H2) in H. done. }
  pose proof (words_of_spec t') as HW.
  destruct (decide (Forall (fun w => ~ bad_word w) (words_of t'))) as [HG|HG].
  - left. destruct (tokenize_text_good _ _ HW HG) as (wss & -> & HF). eexists. split; [done|]. split.
    + exists t, t', urls, (words_of t'), (findall virus_re t), tss, wss. split_and!; try done.
      * apply blower_spec.
      * apply findall_found; [apply virus_spec|apply virus_nonempty].
    + exists t, t', urls, (words_of t'). split_and!; try done. apply blower_spec.
  - right. split.
    + pose proof (tokenize_text_bad _ _ HW HG) as E. destruct (tokenize_text t') as [ts e]. simpl in *. done.
    + intros (t0 & t0' & urls0 & ws & H1 & H2 & H3 & _ & _ & _ & _ & H).
      rewrite (HT _ _ _ H1 H2) in H3. apply words_unique in H3 as ->. done.
Qed.

Lemma payload_outcome b :
  (tokenizable b -> exists ts, tokenize_payload b = (ts, None) /\ body_tokens b ts) /\
  (~ tokenizable b -> (tokenize_payload b).2 = Some TypeError).
Proof. destruct (payload_cases b) as [(ts & H1 & H2 & H3)|[H1 H2]]; split; try done. by exists ts. Qed.

Lemma skipped_det w t t' : skipped w t -> skipped w t' -> t = t'.
Proof.
  intros (c & r & n & -> & H & ->) (c' & r' & n' & [= <- <-] & H' & ->). assert (n = n') as -> by lia. done.
Qed.
Lemma word_tokens_det w ts ts' : word_tokens w ts -> word_tokens w ts' -> ts = ts'.
Proof.
  intros [[? ->]|[[? ->]|(? & t & H & ->)]] [[? ->]|[[? ->]|(? & t' & H' & ->)]]; try done; try lia.
  by rewrite (skipped_det _ _ _ H H').
Qed.
Lemma url_token_list_det w ts ts' : url_token_list w ts -> url_token_list w ts' -> ts = ts'.
Proof.
  intros (p & g & cs & (E & Hp & _) & HC & ->) (p' & g' & cs' & (E' & Hp' & _) & HC' & ->). rewrite E in E'.
  destruct (proto_unique _ _ _ _ Hp Hp' E') as [-> ->]. by rewrite (chunked_unique _ _ _ HC HC').
Qed.
Lemma Forall2_det {A B} (R : A -> B -> Prop) l k k' : (forall x y y', R x y -> R x y' -> y = y') ->
  Forall2 R l k -> Forall2 R l k' -> k = k'.
Proof.
  intros HR H. revert k'. induction H as [|x y l k Hx _ IH]; intros k' H'; inversion H'; subst; [done|].
  f_equal; [by eapply HR|by apply IH].
Qed.

Lemma body_tokens_det b ts ts' : body_tokens b ts -> body_tokens b ts' -> ts = ts'.
Proof.
  intros (t & t' & urls & ws & clues & tss & wss & H1 & H2 & H3 & H4 & H5 & H6 & ->)
    (s & s' & urls' & ws' & clues' & tss' & wss' & K1 & K2 & K3 & K4 & K5 & K6 & ->).
  apply lower_unique in H1 as ->. apply lower_unique in K1 as ->.
  destruct (left_over_det _ _ _ _ _ H2 K2) as [<- <-].
  apply words_unique in H3 as ->. apply words_unique in K3 as ->.
  rewrite (found_det _ virus_functional _ _ _ _ H4 K4).
  rewrite (Forall2_det _ _ _ _ url_token_list_det H5 K5), (Forall2_det _ _ _ _ word_tokens_det H6 K6). done.
Qed.

(** ** Upper and lower case *)
Definition low (c : N) : N := if ((65 <=? c) && (c <=? 90))%N then (c + 32)%N else c.
Lemma blower_low b : blower b = low <$> b.
Proof. done. Qed.
Lemma low_low c : low (low c) = low c.
Proof.
  unfold low. destruct ((65 <=? c) && (c <=? 90))%N eqn:E.
  - apply andb_true_iff in E as [H1 H2]. apply N.leb_le in H1, H2.
    destruct ((65 <=? c + 32) && (c + 32 <=? 90))%N eqn:E'; [|done].
    apply andb_true_iff in E' as [H1' H2']. apply N.leb_le in H1', H2'. lia.
  - by rewrite E.
Qed.
Lemma low_fixed c d : low c = d -> (d <= 64)%N -> c = d.
Proof. unfold low. destruct (_ && _) eqn:E; [|done]. apply andb_true_iff in E as [H1 H2]. apply N.leb_le in H1, H2. lia. Qed.
Lemma low_same c : (c <= 64)%N -> low c = c.
Proof. unfold low. destruct (_ && _) eqn:E; [|done]. apply andb_true_iff in E as [H1 H2]. apply N.leb_le in H1, H2. lia. Qed.

Lemma numeric_entity_chars x w y : numeric_entity x w y -> Forall (fun c => (c <= 64)%N) w.
Proof.
  intros (ds & -> & _ & H). apply Forall_app. split; [by repeat constructor|]. apply Forall_app. split; [|by repeat constructor].
  eapply Forall_impl; [exact H|]. intros c Hc. simpl in Hc. lia.
Qed.

Lemma numeric_entity_lower b : occurs numeric_entity (blower b) <-> occurs numeric_entity b.
Proof.
  rewrite blower_low. split; intros (x & w & y & E & H).
  - apply fmap_app_inv in E as (x0 & z & _ & E & ->). symmetry in E. apply fmap_app_inv in E as (w0 & y0 & E & _ & ->).
    assert (HW : w0 = w).
    { pose proof (numeric_entity_chars _ _ _ H) as HF. rewrite E in HF. rewrite E. clear -HF. induction w0 as [|c w IH]; [done|].
      rewrite fmap_cons in HF. inversion HF as [|? ? H1 H2]; subst. rewrite fmap_cons, <- (IH H2). f_equal.
      by apply low_fixed. }
    exists x0, w0, y0. split; [done|]. by rewrite HW.
  - subst b. rewrite !fmap_app. exists (low <$> x), w, (low <$> y). split; [|done].
    replace (low <$> w) with w; [done|]. pose proof (numeric_entity_chars _ _ _ H) as HF. clear -HF.
    induction HF as [|c w Hc _ IH]; [done|]. rewrite fmap_cons, <- IH. f_equal. by rewrite low_same.
Qed.

Lemma payload_lower b : tokenize_payload (blower b) = tokenize_payload b.
Proof.
  unfold tokenize_payload. assert (EB : blower (blower b) = blower b).
  { rewrite (blower_low b), (blower_low (low <$> b)). induction b as [|c b IH]; [done|].
    rewrite !fmap_cons, low_low. by f_equal. }
  destruct (sub_with_text_cases _ _ numeric_entity_spec b) as [[-> HN]|[-> HN]].
  - destruct (sub_with_text_cases _ _ numeric_entity_spec (blower b)) as [[-> HN']|[-> HN']].
    + by rewrite EB.
    + exfalso. by apply HN, numeric_entity_lower.
  - destruct (sub_with_text_cases _ _ numeric_entity_spec (blower b)) as [[-> HN']|[-> HN']]; [|done].
    exfalso. by apply HN', numeric_entity_lower.
Qed.

(** ** Damaged base64 *)
Lemma is_tab_spec c : is_tab c = true <-> tab c.
Proof. unfold is_tab, tab. by rewrite orb_true_iff, !N.eqb_eq. Qed.
Lemma is_b64_spec c : is_b64 c = true <-> b64_char c.
Proof.
  unfold is_b64, b64_char. rewrite !orb_true_iff, !andb_true_iff, is_num_spec, !N.leb_le, !N.eqb_eq. tauto.
Qed.
Lemma is_eq_spec c : (61 =? c)%N = true <-> 61%N = c.
Proof. by rewrite N.eqb_eq. Qed.

Lemma b64_line_spec x w y : matches base64_re x w y <-> b64_line w.
Proof.
  unfold base64_re, b64_line. split.
  - intros (sp & v1 & -> & H1 & body & v2 & -> & H2 & pad & v3 & -> & H3 & sp' & v4 & -> & H4 & u5 & v5 & -> & H5 & H6).
    apply matches_star_chars in H1, H2, H4. cbn [matches] in H3. unfold ch in H3. apply matches_star_chars in H3.
    apply matches_ch in H6 as ->. exists sp, body, pad, sp', (u5 ++ [10%N]). split_and!; [done| | | | |].
    + by apply (forallb_Forall _ _ is_tab_spec).
    + by apply (forallb_Forall _ _ is_b64_spec).
    + by apply (forallb_Forall (N.eqb 61) (eq 61%N) is_eq_spec).
    + by apply (forallb_Forall _ _ is_tab_spec).
    + apply matches_opt in H5 as [H5| -> ]; [apply matches_ch in H5 as ->|]; rewrite !elem_of_cons; [by right; left|by left].
  - intros (sp & body & pad & sp' & eol & -> & H1 & H2 & H3 & H4 & H5).
    apply (forallb_Forall _ _ is_tab_spec) in H1, H4. apply (forallb_Forall _ _ is_b64_spec) in H2.
    apply (forallb_Forall (N.eqb 61) (eq 61%N) is_eq_spec) in H3.
    eexists sp, _. split_and!; [done|by apply matches_star_chars|].
    eexists body, _. split_and!; [done|by apply matches_star_chars|].
    eexists pad, _. split_and!; [done|cbn [matches]; unfold ch; by apply matches_star_chars|].
    eexists sp', _. split_and!; [done|by apply matches_star_chars|].
    rewrite !elem_of_cons, elem_of_nil in H5. destruct H5 as [-> |[-> |[]]].
    + exists [], [10%N]. split_and!; [done|by apply matches_opt; right|by apply matches_ch].
    + exists [13%N], [10%N]. split_and!; [done|apply matches_opt; left; by apply matches_ch|by apply matches_ch].
Qed.

(** A line ends at its first line end. *)
Lemma b64_line_shape w : b64_line w -> exists u, w = u ++ [10%N] /\ 10%N ∉ u.
Proof.
  intros (sp & body & pad & sp' & eol & -> & H1 & H2 & H3 & H4 & H5).
  assert (HA : 10%N ∉ sp ++ body ++ pad ++ sp').
  { rewrite !elem_of_app. rewrite Forall_forall in H1. rewrite Forall_forall in H2. rewrite Forall_forall in H3.
    rewrite Forall_forall in H4. unfold tab, b64_char in *.
    intros [H|[H|[H|H]]]; [apply H1 in H|apply H2 in H|apply H3 in H|apply H4 in H]; lia. }
  rewrite !elem_of_cons, elem_of_nil in H5. destruct H5 as [-> |[-> |[]]].
  - exists (sp ++ body ++ pad ++ sp'). by rewrite <- !app_assoc.
  - exists (sp ++ body ++ pad ++ sp' ++ [13%N]). rewrite <- !app_assoc. split; [done|].
    rewrite !app_assoc, elem_of_app, <- !app_assoc. intros [H|H]; [done|]. by apply elem_of_list_singleton in H.
Qed.

Lemma b64_line_functional w y w' y' : w ++ y = w' ++ y' -> b64_line w -> b64_line w' -> w = w'.
Proof.
  intros E H H'. apply b64_line_shape in H as (u & -> & Hu). apply b64_line_shape in H' as (u' & -> & Hu').
  rewrite <- !app_assoc in E. simpl in E.
  destruct (run_unique (fun c => c <> 10%N) u u' 10 10 y y') as (-> & _ & _); try done; try tauto.
  - apply Forall_forall. intros c Hc ->. done.
  - apply Forall_forall. intros c Hc ->. done.
Qed.

Lemma b64_pad sp body pad sp' eol : Forall tab sp -> Forall b64_char body -> Forall (eq 61%N) pad -> Forall tab sp' ->
  eol ∈ [[10%N]; [13%N; 10%N]] -> (61%N ∈ sp ++ body ++ pad ++ sp' ++ eol <-> pad <> []).
Proof.
  intros H1 H2 H3 H4 H5. rewrite !elem_of_app. split.
  - rewrite Forall_forall in H1. rewrite Forall_forall in H2. rewrite Forall_forall in H4. unfold tab, b64_char in *.
    intros [H|[H|[H|[H|H]]]].
    + apply H1 in H. lia.
    + apply H2 in H. lia.
    + by destruct pad; [apply elem_of_nil in H|].
    + apply H4 in H. lia.
    + exfalso. revert H. apply (bool_decide_unpack (61%N ∉ eol)).
      rewrite !elem_of_cons, elem_of_nil in H5. by destruct H5 as [-> |[-> |[]]].
  - intros Hp. right; right; left. destruct H3 as [|c pad <- _]; [done|]. left.
Qed.

Lemma elem_of_seq a b c d g : (d, g) ∈ rmatch (RSeq a b) c <->
  exists e g1 g2, (e, g1) ∈ rmatch a c /\ (d, g2) ∈ rmatch b e /\ g = g2 ++ g1.
Proof.
  cbn [rmatch]. rewrite elem_flat_map. split.
  - intros ([e g1] & H1 & H2). apply elem_of_list_fmap in H2 as ([d' g2] & [= -> ->] & H2). by exists e, g1, g2.
  - intros (e & g1 & g2 & H1 & H2 & ->). exists (e, g1). split; [done|]. apply elem_of_list_fmap. by exists (d, g2).
Qed.

(** The group of the base64 expression. *)
Lemma base64_group x s d g : rmatch1 base64_re (at_ x s) = Some (d, g) ->
  exists w y, s = w ++ y /\ d = at_ (x ++ w) y /\ b64_line w /\ (61%N ∈ w <-> the_group 1 g <> []).
Proof.
  intros H. apply rmatch1_in in H. unfold base64_re in H.
  apply elem_of_seq in H as (e1 & g1 & h1 & H1 & H & ->).
  destruct (proj1 (results_matches _ _ _) _ _ H1) as (sp & y1 & -> & -> & M1).
  apply (groupless_caps (RStar (RChr is_tab)) eq_refl) in H1 as ->.
  apply elem_of_seq in H as (e2 & g2 & h2 & H2 & H & ->).
  destruct (proj1 (results_matches _ _ _) _ _ H2) as (body & y2 & -> & -> & M2).
  apply (groupless_caps (RStar (RChr is_b64)) eq_refl) in H2 as ->.
  apply elem_of_seq in H as (e3 & g3 & h3 & H3 & H & ->).
  apply elem_of_group in H3 as (g3' & -> & H3).
  destruct (proj1 (results_matches _ _ _) _ _ H3) as (pad & y3 & -> & -> & M3).
  apply (groupless_caps (RStar (ch 61)) eq_refl) in H3 as ->.
  pose proof H as H'. apply (groupless_caps (RSeq (RStar (RChr is_tab)) (RSeq (ropt (ch 13)) (ch 10))) eq_refl) in H' as ->.
  destruct (proj1 (results_matches _ _ _) _ _ H) as (last & y4 & -> & -> & M4).
  destruct M4 as (sp' & v4 & -> & M4 & eol & v5 & -> & M5 & M6).
  apply matches_star_chars in M1, M2, M4. unfold ch in M3. apply matches_star_chars in M3.
  apply matches_ch in M6 as ->. exists (sp ++ body ++ pad ++ sp' ++ eol ++ [10%N]), y4.
  apply (forallb_Forall _ _ is_tab_spec) in M1, M4. apply (forallb_Forall _ _ is_b64_spec) in M2.
  apply (forallb_Forall (N.eqb 61) (eq 61%N) is_eq_spec) in M3.
  assert (He : eol ++ [10%N] ∈ [[10%N]; [13%N; 10%N]]).
  { apply matches_opt in M5 as [M5| -> ]; [apply matches_ch in M5 as ->|]; rewrite !elem_of_cons; [by right; left|by left]. }
  split_and!.
  - by rewrite <- !app_assoc.
  - by rewrite <- !app_assoc.
  - exists sp, body, pad, sp', (eol ++ [10%N]). done.
  - rewrite b64_pad by done. unfold the_group. cbn [app group Nat.eqb from_option]. by rewrite between_at.
Qed.

Lemma base64_end_spec : forall fuel x s, length s < fuel ->
  exists lead rest, b64_lead s lead rest /\ s = lead ++ rest /\ base64_end fuel (at_ x s) = at_ (x ++ lead) rest.
Proof.
  induction fuel as [|fuel IH]; intros x s Hl; [lia|]. cbn [base64_end].
  destruct (rmatch1 base64_re (at_ x s)) as [[d g]|] eqn:E.
  - destruct (base64_group _ _ _ _ E) as (w & y & -> & -> & HL & HG).
    destruct (b64_line_shape w HL) as (u & Eu & _).
    destruct (the_group 1 g) as [|c p] eqn:EG.
    + assert (H61 : 61%N ∉ w) by (intros H; by apply HG in H).
      destruct (IH (x ++ w) y) as (lead & rest & H1 & -> & ->).
      { rewrite app_length, Eu, app_length in Hl. simpl in Hl. lia. }
      exists (w ++ lead), rest. split_and!; [by constructor|by rewrite <- app_assoc|by rewrite <- app_assoc].
    + exists w, y. split_and!; [|done|done]. apply lead_last; [done|]. by apply HG.
  - exists [], s. split_and!; [|done|by rewrite app_nil_r]. constructor. intros w y Es H.
    apply (proj1 (rmatch1_none _ _ _) E w y Es). by apply b64_line_spec.
Qed.

Lemma b64_lead_det s l r l' r' : b64_lead s l r -> b64_lead s l' r' -> l = l' /\ r = r'.
Proof.
  intros H. revert l' r'. induction H as [s HN|w y lead rest HL H61 _ IH|w y HL H61]; intros l' r' H'.
  - inversion H' as [|w' y' lead' rest' HL' _ _|w' y' HL' _]; subst; [done| |].
    + exfalso. by apply (HN w' y').
    + exfalso. by apply (HN l' r').
  - inversion H' as [? HN|w' y' lead' rest' HL' _ HR' E|w' y' HL' H61' E]; subst.
    + exfalso. by apply (HN w y).
    + assert (w' = w) as -> by by eapply b64_line_functional. apply app_inv_head in E as ->.
      by destruct (IH _ _ HR') as [-> ->].
    + assert (l' = w) as -> by by eapply b64_line_functional. done.
  - inversion H' as [? HN|w' y' lead' rest' HL' H61' HR' E|w' y' HL' _ E]; subst.
    + exfalso. by apply (HN w y).
    + assert (w' = w) as -> by by eapply b64_line_functional. done.
    + assert (l' = w) as -> by by eapply b64_line_functional. by apply app_inv_head in E as ->.
Qed.

Lemma repair_spec a2b text lead rest : b64_lead text lead rest ->
  try_to_repair_damaged_base64 a2b text =
    match lead with
    | [] => Ok text
    | _ => match a2b lead with Ok _ => Err TypeError | Err _ => Ok rest end
    end.
Proof.
  intros H. unfold try_to_repair_damaged_base64. change (start text) with (at_ [] text).
  destruct (base64_end_spec (S (length text)) [] text ltac:(lia)) as (l & r & H' & Es & ->).
  destruct (b64_lead_det _ _ _ _ _ H H') as [<- <-]. simpl app. rewrite Es at 1.
  change (at_ lead rest) with (at_ ([] ++ lead) rest). rewrite between_at. by destruct lead.
Qed.

(** ** Parts *)
Lemma part_outcome a2b p :
  (exists ts, tokenize_part a2b p = (ts, None) /\ part_tokens p ts /\ ~ part_raises p) \/
  ((tokenize_part a2b p).2 = Some TypeError /\ part_raises p).
Proof.
  destruct p as [b| |[raw|]]; simpl.
  - destruct (payload_cases b) as [(ts & H1 & H2 & H3)|[H1 H2]]; [left; exists ts; tauto|by right].
  - left. eexists. split_and!; [done|done|tauto].
  - right. split; [|done]. destruct (try_to_repair_damaged_base64 a2b raw) as [t|e] eqn:E; [done|].
    destruct (base64_end_spec (S (length raw)) [] raw ltac:(lia)) as (l & r & H' & _ & _).
    rewrite (repair_spec _ _ _ _ H') in E. destruct l; [done|]. destruct (a2b _); [by injection E as <-|done].
  - left. eexists. split_and!; [done|done|by intros []].
Qed.

Lemma body_outcome a2b parts :
  (~ Exists part_raises parts -> exists tss, tokenize_body a2b parts = (mjoin tss, None) /\ Forall2 part_tokens parts tss) /\
  (Exists part_raises parts -> (tokenize_body a2b parts).2 = Some TypeError).
Proof.
  split.
  - intros HN. apply gfor_ok. apply Forall_forall. intros p Hp.
    destruct (part_outcome a2b p) as [(ts & H1 & H2 & _)|[_ H]]; [by exists ts|].
    exfalso. apply HN. apply Exists_exists. by exists p.
  - intros HE. destruct (gfor_err (tokenize_part a2b) (eq TypeError) parts) as (e & E & <-); [| |done].
    + intros p e _ H. destruct (part_outcome a2b p) as [(ts & H1 & _)|[H' _]]; [by rewrite H1 in H|]. congruence.
    + eapply Exists_impl; [exact HE|]. intros p Hp.
      destruct (part_outcome a2b p) as [(ts & _ & _ & H)|[H _]]; [done|]. by rewrite H.
Qed.

Lemma part_tokens_det p ts ts' : part_tokens p ts -> part_tokens p ts' -> ts = ts'.
Proof. destruct p; simpl; [apply body_tokens_det|congruence|congruence]. Qed.

Lemma Forall2_permute {A B} (R : A -> B -> Prop) l l' k : l ≡ₚ l' -> Forall2 R l k -> exists k', k ≡ₚ k' /\ Forall2 R l' k'.
Proof.
  intros H. revert k. induction H as [|x l l' _ IH|x y l|l l' l'' _ IH1 _ IH2]; intros k HF.
  - exists k. done.
  - inversion HF as [|? z ? k0 Hx HF']; subst. destruct (IH _ HF') as (k' & HP & HF''). exists (z :: k').
    split; [by apply Permutation_skip|by constructor].
  - inversion HF as [|? z ? k0 Hx HF']; subst. inversion HF' as [|? z' ? k1 Hy HF'']; subst. exists (z' :: z :: k1).
    split; [apply Permutation_swap|by repeat constructor].
  - destruct (IH1 _ HF) as (k1 & HP & HF1). destruct (IH2 _ HF1) as (k2 & HP' & HF2). exists k2. split; [by etrans|done].
Qed.

Lemma body_order a2b parts parts' : parts ≡ₚ parts' ->
  match tokenize_body a2b parts, tokenize_body a2b parts' with
  | (ts, None), (ts', None) => ts ≡ₚ ts'
  | (_, Some e), (_, Some e') => e = e'
  | _, _ => False
  end.
Proof.
  intros HP. destruct (body_outcome a2b parts) as [O1 O2]. destruct (body_outcome a2b parts') as [O1' O2'].
  assert (HD : Exists part_raises parts \/ ~ Exists part_raises parts).
  { clear -a2b. induction parts as [|p parts IH]; [right; intros H; by apply Exists_nil in H|].
    rewrite Exists_cons. destruct (part_outcome a2b p) as [(ts & _ & _ & H)|[_ H]]; tauto. }
  destruct HD as [HE|HE].
  - specialize (O2 HE). rewrite HP in HE. specialize (O2' HE).
    destruct (tokenize_body a2b parts) as [ts [e|]], (tokenize_body a2b parts') as [ts' [e'|]]; simpl in *; congruence.
  - destruct (O1 HE) as (tss & -> & HF). rewrite HP in HE. destruct (O1' HE) as (tss' & -> & HF').
    destruct (Forall2_permute _ _ _ _ HP HF) as (tss'' & HP' & HF'').
    rewrite <- (Forall2_det _ _ _ _ part_tokens_det HF'' HF'), <- HP'. done.
Qed.

(** ** Plain text *)
Lemma lower_not_in b t (cs : codes) : Forall2 lower_of b t -> Forall (fun c => (c <= 64)%N) cs ->
  Forall (fun c => c ∉ cs) b -> Forall (fun c => c ∉ cs) t.
Proof.
  intros HL HC. induction HL as [|c d b t Hc _ IH]; intros HF; [constructor|]. inversion HF as [|? ? H1 H2]; subst.
  constructor; [|by apply IH]. destruct Hc as [[Hc ->]|[_ ->]]; [|done]. intros H. rewrite Forall_forall in HC.
  apply HC in H. lia.
Qed.
Lemma not_in_absurd c (cs t x w y : codes) : Forall (fun c => c ∉ cs) t -> t = x ++ w ++ y -> c ∈ w -> c ∈ cs -> False.
Proof.
  intros HF -> H1 H2. rewrite Forall_forall in HF. apply (HF c); [|done]. rewrite !elem_of_app. tauto.
Qed.

Ltac in_literal := apply (bool_decide_unpack _); by vm_compute.

Lemma plain_text b t ws wss :
  Forall (fun c => c ∉ str "<&=:") b -> Forall2 lower_of b t -> ~ occurs uu_begin t ->
  words t ws -> Forall (fun w => ~ bad_word w) ws -> Forall2 word_tokens ws wss ->
  tokenize_payload b = (mjoin wss, None).
Proof.
  intros HP HL HU HW HG HT.
  assert (HPt : Forall (fun c => c ∉ str "<&=:") t).
  { apply (lower_not_in b); [done| |done]. change (str "<&=:") with [60; 38; 61; 58]%N. by repeat constructor. }
  assert (K : forall P : codes -> codes -> codes -> Prop, (forall x w y, P x w y -> Exists (fun c => c ∈ str "<&=:") w) -> nowhere P [] t).
  { intros P HPw x w y Es H. apply HPw in H. apply Exists_exists in H as (c & H1 & H2).
    exact (not_in_absurd c _ _ _ _ _ HPt Es H1 H2). }
  assert (K60 : forall P : codes -> codes -> codes -> Prop, (forall x w y, P x w y -> 60%N ∈ w) -> nowhere P [] t).
  { intros P HPw. apply K. intros x w y H. apply Exists_exists. exists 60%N. split; [by eapply HPw|in_literal]. }
  assert (LO : left_over t t []).
  { exists t, t, t, [], [], []. split_and!; constructor.
    - apply K. intros x w y [(p & g & -> & _) _]. apply Exists_exists. exists 58%N. split; [|in_literal].
      rewrite !elem_of_app. right; left. in_literal.
    - apply K60. intros x w y (sp & at_ & -> & _). left.
    - apply K60. intros x w y [-> |(sp & at_ & -> & _)]; left.
    - apply K60. intros x w y (sp & sp' & -> & _). left. }
  assert (HTok : tokenizable b).
  { exists t, t, [], ws. split_and!; try done.
    - intros (x & w & y & -> & ds & -> & _). apply (not_in_absurd 38 _ _ _ _ _ HP eq_refl); [left|in_literal].
    - apply nowhere_occurs. apply K. intros x w y H. apply Exists_exists. unfold breaking_entity in H.
      rewrite !elem_of_cons, elem_of_nil in H. destruct H as [-> |[-> |[-> |[]]]]; eexists; (split; [left|in_literal]).
    - apply nowhere_occurs. apply K60. intros x w y (c & r & -> & _). left. }
  destruct (proj1 (payload_outcome b) HTok) as (ts & -> & HB). f_equal.
  apply (body_tokens_det b); [done|]. exists t, t, [], ws, [], [], wss. split_and!; try done.
  constructor. apply K. intros x w y [(sl & sp & n & -> & _)|[(q & -> & _)|(n & q & -> & _)]]; apply Exists_exists.
  - exists 60%N. split; [left|in_literal].
  - exists 61%N. split; [|in_literal]. rewrite elem_of_app. left. in_literal.
  - exists 61%N. split; [|in_literal]. rewrite !elem_of_app. right; left. in_literal.
Qed.

(** ** Tokens are bytes *)
Lemma convert_bytes ws e : forall vs e', convert_to_bytes ws e = (vs, e') -> Forall (fun v => exists b, v = WBytes b) vs.
Proof.
  induction ws as [|w ws IH]; intros vs e' H; simpl in H.
  - injection H as <- _. constructor.
  - destruct w as [s|b|].
    + destruct (utf8 s); simpl in H.
      * destruct (convert_to_bytes ws e) as [vs' e''] eqn:E. injection H as <- _. constructor; [by eexists|by eapply IH].
      * injection H as <- _. constructor.
    + destruct (convert_to_bytes ws e) as [vs' e''] eqn:E. simpl in H. injection H as <- _. constructor; [by eexists|by eapply IH].
    + injection H as <- _. constructor.
Qed.
