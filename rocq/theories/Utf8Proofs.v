(** * Lemmas about UTF-8 (C142) *)
From Coq Require Import String.
From Verif Require Import Py CdbModel TokenModel NetModel HeadModel Utf8Spec.
Local Open Scope N_scope.

Lemma parts64 c : c = 64 * (c / 64) + c mod 64 /\ c mod 64 < 64.
Proof. split; [by apply N.div_mod|by apply N.mod_lt]. Qed.
Lemma div4096 c : c / 4096 = c / 64 / 64.
Proof. by rewrite N.div_div. Qed.
Lemma div262144 c : c / 262144 = c / 64 / 64 / 64.
Proof. by rewrite !N.div_div. Qed.

Lemma utf8_char_spec c b : code_point c -> utf8_char c = Ok b <-> char_bytes c b.
Proof.
  unfold code_point, utf8_char. intros Hc.
  destruct (parts64 c) as [E1 L1]. destruct (parts64 (c / 64)) as [E2 L2]. destruct (parts64 (c / 64 / 64)) as [E3 L3].
  rewrite div4096, div262144.
  set (q1 := c / 64) in *. set (r1 := c mod 64) in *. set (q2 := q1 / 64) in *. set (r2 := q1 mod 64) in *. set (q3 := q2 / 64) in *. set (r3 := q2 mod 64) in *.
  clearbody q1 r1 q2 r2 q3 r3.
  assert (forall b', char_bytes c b' ->
    (c <= 127 /\ b' = [c]) \/ (128 <= c < 2048 /\ b' = [192 + q1; 128 + r1]) \/
    (2048 <= c < 65536 /\ ~ surrogate c /\ b' = [224 + q2; 128 + r2; 128 + r1]) \/
    (65536 <= c /\ b' = [240 + q3; 128 + r3; 128 + r2; 128 + r1])) as Hinv.
  { intros b' H. destruct H as [c H|a b0 c Ha Hb -> Hm|a b0 d c Ha Hb Hd -> Hm Hs|a b0 d e c Ha Hb Hd He -> Hm]; unfold tail_byte in *.
    - by left.
    - right; left. split; [lia|]. f_equal; [lia|f_equal; lia].
    - right; right; left. split; [lia|]. split; [done|]. f_equal; [lia|f_equal; [lia|f_equal; lia]].
    - right; right; right. split; [lia|]. f_equal; [lia|f_equal; [lia|f_equal; [lia|f_equal; lia]]]. }
  destruct (N.ltb_spec c 128).
  { split; [intros [= <-]; constructor; lia|]. intros H'. destruct (Hinv _ H') as [[_ ->]|[[? _]|[[? _]|[? _]]]]; [done|lia..]. }
  destruct (N.ltb_spec c 2048).
  { split; [intros [= <-]; apply (two_bytes _ _ c); unfold tail_byte; lia|].
    intros H'. destruct (Hinv _ H') as [[? ->]|[[? ->]|[[? _]|[? _]]]]; [lia|done|lia..]. }
  destruct (N.leb_spec 55296 c); [destruct (N.leb_spec c 57343)|]; cbn [andb].
  { split; [done|]. intros H'. exfalso. destruct (Hinv _ H') as [[? ->]|[[? ->]|[(?&Hs&_)|[? _]]]]; [lia|lia| |lia]. apply Hs. by split. }
  all: destruct (N.ltb_spec c 65536);
    [split; [intros [= <-]; apply (three_bytes _ _ _ c); unfold tail_byte, surrogate; lia|];
     intros H'; destruct (Hinv _ H') as [[? ->]|[[? ->]|[(?&_&->)|[? _]]]]; [lia|lia|done|lia]
    |split; [intros [= <-]; apply (four_bytes _ _ _ _ c); unfold tail_byte; lia|];
     intros H'; destruct (Hinv _ H') as [[? ->]|[[? ->]|[(?&_&->)|[? ->]]]]; [lia|lia|lia|done]].
Qed.

Lemma utf8_char_err c e : utf8_char c = Err e <-> e = UnicodeEncodeError /\ surrogate c.
Proof.
  unfold utf8_char, surrogate. destruct (N.ltb_spec c 128); [split; [done|lia]|]. destruct (N.ltb_spec c 2048); [split; [done|lia]|].
  destruct (N.leb_spec 55296 c); [destruct (N.leb_spec c 57343)|]; cbn [andb].
  - split; [by intros [= <-]|by intros [-> _]].
  - destruct (c <? 65536); (split; [done|lia]).
  - destruct (c <? 65536); (split; [done|lia]).
Qed.

Lemma utf8_spec s : Forall code_point s -> forall b, utf8 s = Ok b <-> text_bytes s b.
Proof.
  induction 1 as [|c s Hc Hs IH]; intros b; cbn [utf8].
  - split; [intros [= <-]; constructor|]. intros H. by inversion H.
  - split.
    + destruct (utf8_char c) as [x|] eqn:E1; [|done]. cbn [rbind]. destruct (utf8 s) as [r|] eqn:E2; [|done]. cbn [rbind]. intros [= <-].
      constructor; [by apply utf8_char_spec|by apply IH].
    + intros H. inversion H as [|? ? x r H1 H2]; subst. apply utf8_char_spec in H1; [|done]. apply IH in H2. by rewrite H1, H2.
Qed.
Lemma utf8_err s e : utf8 s = Err e <-> e = UnicodeEncodeError /\ exists c, c ∈ s /\ surrogate c.
Proof.
  induction s as [|c s IH]; cbn [utf8].
  - split; [done|]. intros (_&c&Hc&_). by apply elem_of_nil in Hc.
  - destruct (utf8_char c) as [x|e'] eqn:E1; cbn [rbind].
    + assert (~ surrogate c) as Hn. { intros H. assert (utf8_char c = Err UnicodeEncodeError) as E by (by apply utf8_char_err). congruence. }
      destruct (utf8 s) as [r|e'] eqn:E2; cbn [rbind].
      * split; [done|]. intros (->&d&Hd&Hs). apply elem_of_cons in Hd as [->|Hd]; [done|].
        assert (Ok r = Err UnicodeEncodeError) by (apply IH; by eauto). done.
      * split.
        -- intros [= ->]. destruct IH as [IH _]. destruct (IH eq_refl) as (->&d&Hd&Hs). split; [done|]. exists d. split; [by right|done].
        -- intros (->&d&Hd&Hs). apply elem_of_cons in Hd as [->|Hd]; [done|]. apply IH. by eauto.
    + apply utf8_char_err in E1 as [-> Hs]. split.
      * intros [= <-]. split; [done|]. exists c. split; [by left|done].
      * by intros [-> _].
Qed.

Lemma char_unique c c' b b' r r' : char_bytes c b -> char_bytes c' b' -> b ++ r = b' ++ r' -> c = c' /\ r = r'.
Proof.
  intros H H' E. destruct H, H'; cbn [app] in E; simplify_eq; unfold tail_byte in *; try lia; split; done.
Qed.
Lemma char_nonempty c b : char_bytes c b -> b <> [].
Proof. by intros []. Qed.
Lemma text_unique s s' b : text_bytes s b -> text_bytes s' b -> s = s'.
Proof.
  intros H. revert s'. induction H as [|c s x r Hx _ IH]; intros s' H'.
  - inversion H' as [|c' s'' x' r' Hx' _ E1 E2]; [done|]. exfalso. apply char_nonempty in Hx'. by destruct x'.
  - inversion H' as [E1 E2|c' s'' x' r' Hx' Hr' E1 E2].
    + apply char_nonempty in Hx. by destruct x.
    + subst. destruct (char_unique _ _ _ _ _ _ Hx' Hx E2) as [-> ->]. f_equal. by apply IH.
Qed.
Lemma text_byte_range s b : text_bytes s b -> Forall (fun x => x < 256) b.
Proof.
  induction 1 as [|c s x r Hx _ IH]; [constructor|]. apply Forall_app. split; [|done].
  destruct Hx; unfold tail_byte in *; repeat constructor; lia.
Qed.

Lemma utf8_inj s s' b : Forall code_point s -> Forall code_point s' -> utf8 s = Ok b -> utf8 s' = Ok b -> s = s'.
Proof. intros H H' E E'. apply utf8_spec in E, E'; [|done..]. by eapply text_unique. Qed.

Lemma convert_cases ws e : Forall word_points ws ->
  (exists bs, Forall2 as_bytes ws bs /\ convert_to_bytes ws e = (WBytes <$> bs, e)) \/
  (exists pre w post bs x, ws = pre ++ w :: post /\ Forall2 as_bytes pre bs /\ not_bytes w x /\ convert_to_bytes ws e = (WBytes <$> bs, Some x)).
Proof.
  induction 1 as [|w ws Hw _ IH]; [left; exists []; by split; [constructor|]|].
  assert (forall b, as_bytes w b -> (forall g, match w with
      | WStr s => match utf8 s with Ok b => gapp (gok [WBytes b]) g | Err x => gerr x end
      | WBytes b => gapp (gok [WBytes b]) g | WNone => gerr TypeError end = gapp (gok [WBytes b]) g) ->
    (exists bs, Forall2 as_bytes (w :: ws) bs /\ convert_to_bytes (w :: ws) e = (WBytes <$> bs, e)) \/
    (exists pre v post bs x, w :: ws = pre ++ v :: post /\ Forall2 as_bytes pre bs /\ not_bytes v x /\ convert_to_bytes (w :: ws) e = (WBytes <$> bs, Some x))) as Hgo.
  { intros b Hb Hg. cbn [convert_to_bytes]. rewrite Hg.
    destruct IH as [(bs&H1&H2)|(pre&v&post&bs&x& -> &H1&H2&H3)].
    - left. exists (b :: bs). split; [by constructor|]. by rewrite H2.
    - right. exists (w :: pre), v, post, (b :: bs), x. split_and!; [done|by constructor|done|]. by rewrite H3. }
  destruct w as [s|b|].
  - destruct (utf8 s) as [b|x] eqn:Es.
    + apply (Hgo b); [|done]. left. exists s. split; [done|]. apply utf8_spec; [by apply Hw|done].
    + right. exists [], (WStr s), ws, [], x. apply utf8_err in Es as Es'. destruct Es' as (->&c&Hc&Hs). split_and!; [done|constructor| |].
      * left. by exists s, c.
      * cbn [convert_to_bytes]. by rewrite Es.
  - apply (Hgo b); [by right|done].
  - right. exists [], WNone, ws, [], TypeError. split_and!; [done|constructor| |done]. by right.
Qed.

Lemma call_cases U E basic only o a2b parts h texts ws e :
  gapp (tokenize_headers U E o parts h) (tokenize_body a2b texts) = (ws, e) -> Forall word_points ws ->
  (exists bs, Forall2 as_bytes ws bs /\ tokenizer_call U E basic only o a2b parts h texts = (WBytes <$> bs, e)) \/
  (exists pre w post bs x, ws = pre ++ w :: post /\ Forall2 as_bytes pre bs /\ not_bytes w x /\
     tokenizer_call U E basic only o a2b parts h texts = (WBytes <$> bs, Some x)).
Proof. intros H Hw. unfold tokenizer_call. rewrite H. by apply convert_cases. Qed.

Lemma surrogate_no_bytes s b c : text_bytes s b -> c ∈ s -> ~ surrogate c.
Proof.
  induction 1 as [|d s x r Hx _ IH]; intros Hc; [by apply elem_of_nil in Hc|].
  apply elem_of_cons in Hc as [->|Hc]; [|by apply IH].
  destruct Hx; unfold surrogate, tail_byte in *; try done; lia.
Qed.
Lemma not_both w b e : as_bytes w b -> ~ not_bytes w e.
Proof.
  intros [(s& -> &H)| -> ] [(s'&c&E&Hc&Hs&_)|[E _]]; simplify_eq. by eapply surrogate_no_bytes.
Qed.
Lemma as_bytes_fun w b b' : word_points w -> as_bytes w b -> as_bytes w b' -> b = b'.
Proof.
  intros Hw [(s& -> &H)| -> ] [(s'&E&H')|E]; simplify_eq; [|done].
  apply utf8_spec in H, H'; [|by apply Hw..]. congruence.
Qed.
Lemma as_bytes_inj w w' b : is_text w -> is_text w' -> as_bytes w b -> as_bytes w' b -> w = w'.
Proof.
  intros [t ->] [t' ->] [(s&E&H)|E] [(s'&E'&H')|E']; simplify_eq. f_equal. by eapply text_unique.
Qed.
Lemma tokens_apart ws ws' bs : Forall is_text ws -> Forall is_text ws' -> Forall2 as_bytes ws bs -> Forall2 as_bytes ws' bs -> ws = ws'.
Proof.
  intros H H' F. revert ws' H'. induction F as [|w b ws bs Hw _ IH]; intros ws' H' F'; inversion F' as [|w' ? ws'' ? Hw' F'']; subst; [done|].
  inversion H; inversion H'; subst. f_equal; [by eapply as_bytes_inj|by apply IH].
Qed.

(** cdb_make *)
Lemma put_surrogate items : Forall (fun kv => N.of_nat (length kv.1) < 2 ^ 32 /\ N.of_nat (length kv.2) < 2 ^ 32) items ->
  forall kv c, kv ∈ items -> c ∈ kv.1 \/ c ∈ kv.2 -> surrogate c -> forall pos, put_items items pos = Err UnicodeEncodeError.
Proof.
  induction 1 as [|[k v] items [Hk Hv] _ IH]; intros kv c Hi Hc Hs pos; [by apply elem_of_nil in Hi|].
  cbn [put_items]. unfold uint32_pack. cbn [fst snd] in Hk, Hv. apply N.ltb_lt in Hk, Hv. rewrite Hk, Hv. cbn [rbind].
  destruct (utf8 k) as [bk|e] eqn:Ek; cbn [rbind]; [|by apply utf8_err in Ek as [-> _]].
  destruct (utf8 v) as [bv|e] eqn:Ev; cbn [rbind]; [|by apply utf8_err in Ev as [-> _]].
  apply elem_of_cons in Hi as [->|Hi].
  - exfalso. cbn [fst snd] in Hc. destruct Hc as [Hc|Hc].
    + assert (utf8 k = Err UnicodeEncodeError) by (apply utf8_err; by eauto). congruence.
    + assert (utf8 v = Err UnicodeEncodeError) by (apply utf8_err; by eauto). congruence.
  - by rewrite (IH kv c Hi Hc Hs).
Qed.
Lemma make_surrogate items kv c : Forall (fun kv => N.of_nat (length kv.1) < 2 ^ 32 /\ N.of_nat (length kv.2) < 2 ^ 32) items ->
  kv ∈ items -> c ∈ kv.1 \/ c ∈ kv.2 -> surrogate c -> cdb_make items = Err UnicodeEncodeError.
Proof. intros H Hi Hc Hs. unfold cdb_make. by rewrite (put_surrogate items H kv c). Qed.

Lemma bytes_of_text s : Forall code_point s -> (forall c, c ∈ s -> ~ surrogate c) -> exists b, text_bytes s b /\ Forall (fun x => x < 256) b.
Proof.
  intros H Hs. destruct (utf8 s) as [b|e] eqn:E.
  - apply utf8_spec in E; [|done]. exists b. split; [done|by eapply text_byte_range].
  - apply utf8_err in E as (_&c&Hc&H'). by destruct (Hs c Hc).
Qed.
