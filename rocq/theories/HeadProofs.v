(** * Proofs about header tokenizing *)
From Coq Require Import String.
From Verif Require Import Py Regex RegexSpec RegexProofs StripModel StripSpec StripProofs MessageModel MessageSpec
  NetModel NetSpec NetProofs TokenModel TokenSpec TokenProofs HeadModel HeadSpec.

(** ** Generators *)

Lemma gapp_none g h ts : gapp g h = (ts, None) <-> exists a b, g = (a, None) /\ h = (b, None) /\ ts = a ++ b.
Proof.
  destruct g as [a [e|]], h as [b e']; simpl; split.
  - done.
  - by intros (? & ? & [=] & _).
  - intros [= <- ->]. by exists a, b.
  - by intros (? & ? & [= <-] & [= <- ->] & ->).
Qed.

Lemma gapp_some g h e : (gapp g h).2 = Some e <-> g.2 = Some e \/ (g.2 = None /\ h.2 = Some e).
Proof.
  destruct g as [a [e1|]], h as [b e']; simpl; naive_solver.
Qed.

Lemma gfor_all {X} (f : X -> gen) xs :
  (exists tss, gfor f xs = (mjoin tss, None) /\ Forall2 (fun x ts => f x = (ts, None)) xs tss) \/
  (exists e l x r, xs = l ++ x :: r /\ (gfor f xs).2 = Some e /\ (f x).2 = Some e /\ Forall (fun x => (f x).2 = None) l).
Proof.
  induction xs as [|x xs IH]; simpl.
  - left. exists []. split; [done|constructor].
  - destruct (f x) as [ts [e|]] eqn:E.
    + right. exists e, [], x, xs. simpl. rewrite E. split_and!; [done|done|done|constructor].
    + destruct IH as [(tss & -> & H)|(e & l & x' & r & -> & H1 & H2 & H3)].
      * left. exists (ts :: tss). split; [done|by constructor].
      * right. exists e, (x :: l), x', r. destruct (gfor f (l ++ x' :: r)) as [vs e']. simpl in *. subst.
        split_and!; [done|done|done|]. constructor; [by rewrite E|done].
Qed.

(** ** Runs *)

Lemma runs_ext P Q text ws : (forall c, P c <-> Q c) -> runs P text ws -> runs Q text ws.
Proof.
  intros H. induction 1 as [|c text ws Hc _ IH|w text ws Hne Hw Ht _ IH].
  - constructor.
  - apply runs_skip; [by rewrite <- H|done].
  - apply runs_run; [done| | |done].
    + eapply Forall_impl; [exact Hw|]. intros c. apply H.
    + intros c rest E. rewrite <- H. by apply (Ht c rest).
Qed.

Lemma runs_skips (P : N -> Prop) k text ws : Forall (fun c => ~ P c) k -> runs P text ws -> runs P (k ++ text) ws.
Proof. induction 1; simpl; [done|]. intros H'. apply runs_skip; auto. Qed.

Lemma rfindall_runs p : forall fuel x s, length s < fuel ->
  runs (fun c => p c = true) s (rfindall fuel (rplus (RChr p)) (at_ x s)).
Proof.
  induction fuel as [|fuel IH]; intros x s Hl; [lia|]. cbn [rfindall]. rewrite rsearch_at.
  pose proof (rsearch_spec (rplus (RChr p)) s x) as HS.
  destruct (rsearch_from (rplus (RChr p)) (reverse x) s) as [[[c d] g]|].
  - destruct HS as (k & w & y & (-> & HM & HL) & -> & -> & H1). rewrite (app_assoc x k w), between_at.
    apply matches_plus_chars in HM as [Hne Hw]. apply runs_skips.
    + rewrite Forall_lookup. intros i c Hi Hc.
      pose proof (lookup_lt_Some _ _ _ Hi).
      assert (length k <= length (take i k)) as HK; [|rewrite take_length in HK; lia].
      apply (HL (take i k) [c] (drop (S i) k ++ w ++ y)).
      * rewrite <- (take_drop_middle _ _ _ Hi) at 1. by rewrite <- app_assoc.
      * apply matches_plus_chars. split; [done|]. simpl. by rewrite Hc.
    + apply runs_run; [done| | |].
      * by apply (forallb_Forall p (fun c => p c = true)).
      * intros c rest Ey. pose proof (plus_chars_maximal _ _ _ _ H1 c rest Ey) as E'. by rewrite E'.
      * apply IH. rewrite !app_length in Hl. destruct w; [done|]. simpl in Hl. lia.
  - clear IH Hl. induction s as [|c s IHs] in x, HS |- *; [constructor|]. apply runs_skip.
    + intros Hc. apply (HS [] [c] s eq_refl). apply matches_plus_chars. split; [done|]. simpl. by rewrite Hc.
    + apply (IHs (x ++ [c])). intros x' w y -> HM. apply (HS (c :: x') w y eq_refl).
      apply matches_plus_chars. by apply matches_plus_chars in HM.
Qed.

Lemma findall_runs p s : runs (fun c => p c = true) s (findall (rplus (RChr p)) s).
Proof. apply (rfindall_runs p (S (length s)) [] s). lia. Qed.

Lemma runs_from_spec p : forall text w, Forall (fun c => p c = true) w ->
  runs (fun c => p c = true) (w ++ text) (runs_from p w text).
Proof.
  induction text as [|c text IH]; intros w Hw; cbn [runs_from].
  - destruct w as [|d w]; [constructor|]. apply (runs_run _ (d :: w)); [done|done|done|constructor].
  - destruct (p c) eqn:Ec.
    + change (c :: text) with ([c] ++ text). rewrite app_assoc. apply IH. apply Forall_app. split; [done|by repeat constructor].
    + specialize (IH [] (Forall_nil_2 _)). simpl in IH. assert (p c <> true) by congruence. destruct w as [|d w].
      * by apply runs_skip.
      * apply (runs_run _ (d :: w)); [done|done| |by apply runs_skip]. by intros ? ? [= <- _].
Qed.

Lemma run_split (P : N -> Prop) v w text text' : Forall P v -> Forall P w ->
  (forall c rest, text = c :: rest -> ~ P c) -> (forall c rest, text' = c :: rest -> ~ P c) ->
  v ++ text = w ++ text' -> v = w /\ text = text'.
Proof.
  intros Hv. revert w. induction Hv as [|a v Ha Hv IH]; intros w Hw Ht Ht' E; destruct w as [|b w]; simpl in E.
  - done.
  - subst. inversion Hw; subst. by destruct (Ht b (w ++ text') eq_refl).
  - subst. by destruct (Ht' a (v ++ text) eq_refl).
  - injection E as -> E. inversion Hw; subst. by destruct (IH w) as [-> ->].
Qed.

Lemma runs_det P text ws ws' : runs P text ws -> runs P text ws' -> ws = ws'.
Proof.
  intros H. revert ws'. induction H as [|c text ws Hc _ IH|w text ws Hne Hw Ht H IH]; intros ws' H'.
  - inversion H' as [| |w text ws0 Hne Hw _ _ E]; subst; [done|]. by destruct w.
  - inversion H' as [|c' text' ws0 Hc' H0|w text' ws0 Hne Hw _ _ E]; subst; [by apply IH|].
    destruct w as [|d w]; [done|]. injection E as -> _. inversion Hw; subst. done.
  - inversion H' as [E|c' text' ws0 Hc' H0 E|w' text' ws0 Hne' Hw' Ht' H0 E]; subst.
    + by destruct w.
    + destruct w as [|c w]; [done|]. injection E as -> _. inversion Hw; subst. done.
    + destruct (run_split P w' w text' text) as [-> ->]; [done..|]. f_equal. by apply IH.
Qed.

(** ** Headers by name *)

Lemma hget_default_absent h name d : absent h name -> lower name = name -> hget_default h name d = d.
Proof.
  intros H Hn. induction H as [|[k v] h Hk _ IH]; [done|]. simpl. unfold same_name. rewrite Hn.
  simpl in Hk. by rewrite bool_decide_eq_false_2.
Qed.
Lemma hget_default_first h name d v : first_is h name v -> lower name = name -> hget_default h name d = fetch v.
Proof.
  intros (l1 & k & l2 & -> & Hk & Hl) Hn. induction Hl as [|[k' v'] l1 Hk' _ IH]; simpl; unfold same_name; rewrite Hn.
  - by rewrite bool_decide_eq_true_2.
  - simpl in Hk'. by rewrite bool_decide_eq_false_2.
Qed.
Lemma hget_default_cases h name d : lower name = name ->
  (absent h name /\ hget_default h name d = d) \/ exists v, first_is h name v /\ hget_default h name d = fetch v.
Proof.
  intros Hn. assert (absent h name \/ exists v, first_is h name v) as [H|[v H]].
  - induction h as [|[k v] h IH]; [left; constructor|]. destruct (decide (lower k = name)) as [E|E].
    + right. exists v, [], k, h. split_and!; [done|done|constructor].
    + destruct IH as [H|(v' & l1 & k' & l2 & -> & H1 & H2)].
      * left. by constructor.
      * right. exists v', ((k, v) :: l1), k', l2. split_and!; [done|done|by constructor].
  - left. split; [done|by apply hget_default_absent].
  - right. exists v. split; [done|by apply hget_default_first].
Qed.

Lemma hget_all_values h name vs : lower name = name -> values name h vs -> hget_all h name = fetch <$> vs.
Proof.
  intros Hn. unfold hget_all. induction 1 as [|k v h vs Hk _ IH|k v h vs Hk _ IH]; [done| |]; unfold same_name in *; simpl; rewrite Hn in *.
  - rewrite filter_cons_True by (simpl; by rewrite bool_decide_eq_true_2). csimpl. by rewrite IH.
  - rewrite filter_cons_False by (simpl; by rewrite bool_decide_eq_false_2). by rewrite IH.
Qed.
Lemma values_exist name h : exists vs, values name h vs.
Proof.
  induction h as [|[k v] h [vs IH]]; [exists []; constructor|].
  destruct (decide (lower k = name)); [exists (v :: vs)|exists vs]; by constructor.
Qed.

Lemma fetch_text v s : text_value v s -> fetch v = FText s.
Proof.
  intros [-> H]. unfold fetch. destruct (has_surrogates s) eqn:E; [|done]. exfalso.
  unfold has_surrogates in E. apply existsb_exists in E as (c & Hc & E). apply elem_of_list_In in Hc.
  apply (proj1 (Forall_forall _ _) H) in Hc. unfold is_surrogate in E. apply andb_true_iff in E as [E1 E2].
  apply N.leb_le in E1, E2. by apply Hc.
Qed.
Lemma fetch_text_inv v s : fetch v = FText s -> text_value v s.
Proof.
  destruct v as [t|]; [|done]. simpl. destruct (has_surrogates t) eqn:E; [done|]. intros [= ->]. split; [done|].
  apply Forall_forall. intros c Hc Hs. unfold has_surrogates in E.
  assert (existsb is_surrogate s = true) as E'; [|by rewrite E in E'].
  apply existsb_exists. exists c. split; [by apply elem_of_list_In|]. unfold is_surrogate.
  apply andb_true_iff. split; apply N.leb_le; lia.
Qed.

(** ** Logarithms *)

Lemma round_log2_spec n : 0 < n -> nearest_log2 n (round_log2 n).
Proof.
  intros Hn. unfold nearest_log2, round_log2. set (m := N.of_nat n). assert (0 < m)%N as Hm by (unfold m; lia). clearbody m.
  set (l := N.log2 (m * m)). assert (0 < m * m)%N as Hmm by nia.
  pose proof (N.log2_spec (m * m) Hmm) as [H1 H2]. fold l in H1, H2.
  set (k := ((l + 1) / 2)%N).
  assert (l + 1 = 2 * k \/ l + 1 = 2 * k + 1)%N as HK.
  { clear. unfold k. generalize (l + 1)%N as j. intros j. pose proof (N.div_mod j 2 ltac:(done)) as HD.
    pose proof (N.mod_lt j 2 ltac:(done)) as HL. revert HD HL. generalize (j / 2)%N, (j mod 2)%N. intros; lia. }
  assert (forall a b : N, (0 < b)%N -> (a * a <> 2 * (b * b))%N) as Hsq.
  { clear. intros a b. revert a. induction b as [b IH] using (well_founded_induction N.lt_wf_0). intros a Hb E.
    assert (N.even a = true) as Ea.
    { destruct (N.even a) eqn:Ea; [done|]. assert (N.even (a * a) = false) as E1 by by rewrite N.even_mul, Ea.
      rewrite E, N.even_mul in E1. done. }
    apply N.even_spec in Ea as [a' ->]. assert (b * b = 2 * (a' * a'))%N as E2 by nia.
    apply (IH a' ltac:(nia) b ltac:(nia) E2). }
  destruct HK as [HK|HK].
  - assert (N.succ l = 2 * k)%N as E by lia. rewrite E in H2. split.
    + assert (2 ^ (2 * k) = 2 * 2 ^ l)%N as E2 by by rewrite <- E, N.pow_succ_r'.
      assert (2 ^ (2 * k) <> 2 * (m * m))%N as HN; [|lia].
      replace (2 * k)%N with (k + k)%N by lia. rewrite N.pow_add_r. by apply Hsq.
    + lia.
  - assert (l = 2 * k)%N as E by lia. rewrite E in H1, H2. rewrite N.pow_succ_r' in H2. split; lia.
Qed.
Lemma nearest_log2_unique n k k' : nearest_log2 n k -> nearest_log2 n k' -> k = k'.
Proof.
  unfold nearest_log2. generalize (N.of_nat n * N.of_nat n)%N as m. intros m [H1 H2] [H3 H4].
  assert (forall a b : N, (2 ^ (2 * a) < 2 * m)%N -> (m < 2 * 2 ^ (2 * b))%N -> (a <= b)%N) as H.
  { clear. intros a b H1 H2. destruct (N.le_gt_cases a b) as [|Hlt]; [done|]. exfalso.
    assert (2 ^ (2 * b + 2) <= 2 ^ (2 * a))%N as HP by (apply N.pow_le_mono_r; lia).
    rewrite N.pow_add_r in HP. change (2 ^ 2)%N with 4%N in HP. lia. }
  apply N.le_antisymm; by apply H.
Qed.

Lemma hget_default_or h name d x : lower name = name -> header_or h name d x <-> hget_default h name d = x.
Proof.
  intros Hn. split.
  - intros [[H ->]|(v & H & ->)]; [by apply hget_default_absent|by apply hget_default_first].
  - intros <-. destruct (hget_default_cases h name d Hn) as [[H E]|(v & H & E)]; [by left|]. right. exists v. by rewrite E.
Qed.

(** ** Parts *)

Lemma charsets_eq U cs : flat_map (fun c => match c with
    | None => [] | Some c => [WStr (str "charset:" ++ u_lower U c)] end) cs =
  mjoin (optional (fun c => str "charset:" ++ u_lower U c) <$> cs).
Proof. induction cs as [|c cs IH]; [done|]. cbn [flat_map]. rewrite IH. by destruct c. Qed.

Lemma filename_tokens_eq f : filename_tokens (Some f) = ([WStr (str "filename:fname:" ++ f); WStr (str "filename:<bogus>")], None).
Proof. done. Qed.

Lemma part_ok U x : pt_param x <> PTriple -> (forall s, pt_disposition x <> FHeader s) ->
  crack_content_xyz U x = (part_token_list U x, None).
Proof.
  intros H1 H2. unfold crack_content_xyz, part_token_list. rewrite !gapp_ok.
  assert (filename_tokens (pt_filename x) = (match pt_filename x with None => [] | Some f =>
    [WStr (str "filename:fname:" ++ f); WStr (str "filename:<bogus>")] end, None)) as EF by by destruct (pt_filename x).
  rewrite EF. clear EF.
  assert (forall P g, pt_param x <> PTriple -> gapp (match pt_param x with PAbsent => gok [] | PText s => gok [P s] | PTriple => gerr AttributeError end) g =
    (match pt_param x with PText s => [P s] | _ => [] end ++ g.1, g.2)) as EP by (intros P [? ?]; by destruct (pt_param x)).
  rewrite EP by done. clear EP.
  assert (forall P g, gapp (match pt_disposition x with FNone => gok [] | FText s => gok [P s] | FHeader _ => gerr AttributeError end) g =
    (match pt_disposition x with FText s => [P s] | _ => [] end ++ g.1, g.2)) as ED.
  { intros P [? ?]. destruct (pt_disposition x) as [| |s]; [done|done|]. by destruct (H2 s). }
  rewrite ED. clear ED. destruct (pt_charsets x); rewrite gapp_ok; [rewrite charsets_eq|]; done.
Qed.

Lemma part_err U x : pt_param x = PTriple \/ (exists s, pt_disposition x = FHeader s) ->
  (crack_content_xyz U x).2 = Some AttributeError.
Proof.
  intros H. unfold crack_content_xyz. apply gapp_some. right. split; [done|]. apply gapp_some.
  destruct (pt_param x) eqn:EP.
  1,2: right; split; [done|]; apply gapp_some; right; split; [by destruct (pt_charsets x)|]; apply gapp_some; left;
    destruct H as [H|[sd ->]]; done.
  by left.
Qed.

(** ** Subject *)

Lemma label_texts p ws e : label p (WStr <$> ws) e = ((fun w => WStr (p ++ w)) <$> ws, e).
Proof. induction ws as [|w ws IH]; [done|]. csimpl. rewrite IH. done. Qed.

Lemma subject_char_spec U c : subject_char U c = true <-> subject_word_char U c.
Proof.
  unfold subject_char, subject_word_char. change (str "$.%") with [36; 46; 37]%N.
  rewrite !orb_true_iff, andb_true_iff, !N.leb_le, !N.eqb_eq, !elem_of_cons, elem_of_nil. naive_solver.
Qed.

Lemma no_cr_spec s : Forall2 blank_for_return s (no_cr s).
Proof.
  unfold no_cr. induction s as [|c s IH]; csimpl; constructor; [|done]. unfold blank_for_return.
  destruct (N.eqb_spec c 13); [by left|by right].
Qed.
Lemma blank_for_return_det s t t' : Forall2 blank_for_return s t -> Forall2 blank_for_return s t' -> t = t'.
Proof. apply Forall2_det. unfold blank_for_return. naive_solver. Qed.

Lemma subject_runs_exist U s : subject_runs U s (findall (subject_word_re U) (no_cr s)) (findall (punctuation_run_re U) (no_cr s)).
Proof.
  exists (no_cr s). split; [apply no_cr_spec|]. split.
  - eapply runs_ext; [|apply findall_runs]. intros c. apply subject_char_spec.
  - eapply runs_ext; [|apply findall_runs]. intros c. simpl. by destruct (u_word U c).
Qed.
Lemma subject_runs_det U s ws ps ws' ps' : subject_runs U s ws ps -> subject_runs U s ws' ps' -> ws = ws' /\ ps = ps'.
Proof.
  intros (t & H1 & H2 & H3) (t' & H1' & H2' & H3'). assert (t' = t) as -> by by eapply blank_for_return_det.
  split; by eapply runs_det.
Qed.

Lemma subject_word_ok w : length w <= 12 ->
  (let '(ts, e) := tokenize_word (WStr w) in label (str "subject:") ts e) =
  (if decide (3 <= length w) then [WStr (str "subject:" ++ w)] else [], None).
Proof.
  intros H. destruct (text_word w) as (H1 & H2 & _). destruct (decide (3 <= length w)).
  - by rewrite H2.
  - rewrite H1 by lia. done.
Qed.
Lemma subject_word_bad w : 12 < length w ->
  (let '(ts, e) := tokenize_word (WStr w) in label (str "subject:") ts e).2 = Some TypeError.
Proof.
  intros H. unfold tokenize_word, SKIP_MAX_WORD_SIZE. cbn [wcodes].
  destruct (Nat.ltb_spec (length w) 3); [lia|]. destruct (Nat.leb_spec (length w) 12); [lia|].
  by destruct (length w <? 40).
Qed.

Lemma subject_words_ok ws : Forall (fun w => length w <= 12) ws ->
  gfor (fun w => let '(ts, e) := tokenize_word (WStr w) in label (str "subject:") ts e) ws =
  ((fun w => WStr (str "subject:" ++ w)) <$> filter (fun w => 3 <= length w) ws, None).
Proof.
  induction 1 as [|w ws Hw _ IH]; [done|]. cbn [gfor]. rewrite IH, subject_word_ok by done.
  destruct (decide (3 <= length w)); [rewrite filter_cons_True by done|rewrite filter_cons_False by done]; done.
Qed.
Lemma subject_words_bad ws : Exists (fun w => 12 < length w) ws ->
  (gfor (fun w => let '(ts, e) := tokenize_word (WStr w) in label (str "subject:") ts e) ws).2 = Some TypeError.
Proof.
  induction ws as [|w ws IH]; intros H; [by apply Exists_nil in H|]. cbn [gfor]. apply gapp_some.
  destruct (decide (12 < length w)) as [Hw|Hw].
  - left. by apply subject_word_bad.
  - right. rewrite subject_word_ok by lia. split; [done|]. apply IH. apply Exists_cons in H as [H|H]; [lia|done].
Qed.

Lemma charset_gen (f : codes -> codes) c h : gapp (match c with None => gok [] | Some c => gok [WStr (f c)] end) h =
  (optional f c ++ h.1, h.2).
Proof. by destruct c, h. Qed.

Lemma chunk_good U xc : ~ bad_chunk U xc -> exists ts, subject_chunk U xc = (ts, None) /\ chunk_tokens U xc ts.
Proof.
  destruct xc as [x c]. intros H. unfold subject_chunk. rewrite charset_gen. destruct x as [s|b|]; [|by destruct H..].
  pose proof (subject_runs_exist U s) as HR.
  set (ws := findall (subject_word_re U) (no_cr s)) in *. set (ps := findall (punctuation_run_re U) (no_cr s)) in *.
  cbn zeta. fold ws ps. rewrite subject_words_ok; [|].
  - eexists. split; [done|]. exists s, ws, ps. done.
  - apply Forall_forall. intros w Hw. destruct (decide (length w <= 12)); [done|]. destruct H. exists ws, ps.
    split; [done|]. apply Exists_exists. exists w. split; [done|lia].
Qed.
Lemma chunk_bad U xc : bad_chunk U xc -> xc.1 <> WNone -> (subject_chunk U xc).2 = Some TypeError.
Proof.
  destruct xc as [x c]. intros H Hx. unfold subject_chunk. rewrite charset_gen. destruct x as [s|b|]; [|done|done].
  destruct H as (ws & ps & HR & HE). destruct (subject_runs_det _ _ _ _ _ _ HR (subject_runs_exist U s)) as [-> _].
  cbn [snd]. apply gapp_some. left. by apply subject_words_bad.
Qed.
Lemma chunk_dec U xc : {bad_chunk U xc} + {~ bad_chunk U xc}.
Proof.
  destruct xc as [[s|b|] c]; [|by left..].
  destruct (decide (Exists (fun w => 12 < length w) (findall (subject_word_re U) (no_cr s)))) as [H|H]; [left|right].
  - eexists _, _. split; [apply subject_runs_exist|done].
  - intros (ws & ps & HR & HE). destruct (subject_runs_det _ _ _ _ _ _ HR (subject_runs_exist U s)) as [-> _]. done.
Qed.
Lemma chunk_tokens_det U xc ts ts' : chunk_tokens U xc ts -> chunk_tokens U xc ts' -> ts = ts'.
Proof.
  intros (s & ws & ps & E & HR & ->) (s' & ws' & ps' & E' & HR' & ->). assert (s' = s) as -> by congruence.
  by destruct (subject_runs_det _ _ _ _ _ _ HR HR') as [-> ->].
Qed.

Lemma chunks_outcome U chunks :
  (~ Exists (bad_chunk U) chunks -> exists tss, gfor (subject_chunk U) chunks = (mjoin tss, None) /\ Forall2 (chunk_tokens U) chunks tss) /\
  (Forall (fun xc => xc.1 <> WNone) chunks -> Exists (bad_chunk U) chunks -> (gfor (subject_chunk U) chunks).2 = Some TypeError).
Proof.
  split.
  - intros H. apply gfor_ok. apply Forall_forall. intros xc Hx. apply chunk_good. intros HB. apply H.
    apply Exists_exists. by exists xc.
  - intros HN HE. destruct (gfor_err (subject_chunk U) (eq TypeError) chunks) as (e & He & <-); [| |done].
    + intros xc e Hx He. destruct (chunk_dec U xc) as [HB|HB].
      * rewrite chunk_bad in He; [congruence|done|]. by apply (proj1 (Forall_forall _ _) HN).
      * destruct (chunk_good U xc HB) as (ts & E & _). by rewrite E in He.
    + apply Exists_exists in HE as (xc & Hx & HB). apply Exists_exists. exists xc. split; [done|].
      rewrite chunk_bad; [done|done|]. by apply (proj1 (Forall_forall _ _) HN).
Qed.

Lemma subject_outcome U E h x chunks : header_or h (str "subject") (FText []) x ->
  decode_header E x = Ok chunks \/ (exists s, x = FText s /\ decode_header E x = Err ValueError /\ chunks = [(WStr s, Some (str "invalid"))]) ->
  Forall (fun xc => xc.1 <> WNone) chunks ->
  (~ Exists (bad_chunk U) chunks -> exists tss, subject_tokens U E h = (mjoin tss, None) /\ Forall2 (chunk_tokens U) chunks tss) /\
  (Exists (bad_chunk U) chunks -> (subject_tokens U E h).2 = Some TypeError).
Proof.
  intros Hx Hd Hn. apply (hget_default_or _ (str "subject")) in Hx; [|done]. unfold subject_tokens. rewrite Hx.
  assert (decoded E x = Ok chunks) as ->.
  { unfold decoded. destruct Hd as [->|(s & -> & -> & ->)]; done. }
  destruct (chunks_outcome U chunks) as [H1 H2]. split; [done|by apply H2].
Qed.
Lemma subject_raises U E h x e : header_or h (str "subject") (FText []) x -> decode_header E x = Err e -> e <> ValueError ->
  subject_tokens U E h = ([], Some e).
Proof.
  intros Hx Hd He. apply (hget_default_or _ (str "subject")) in Hx; [|done]. unfold subject_tokens, decoded.
  rewrite Hx, Hd. by destruct e.
Qed.

Lemma run_inside P text ws a w b : runs P text ws -> text = a ++ w ++ b -> w <> [] -> Forall P w ->
  exists v, v ∈ ws /\ length w <= length v.
Proof.
  intros HR. revert a. induction HR as [|c text ws Hc _ IH|v text ws Hne Hv Ht HR IH]; intros a E Hn Hw.
  - by destruct a, w.
  - destruct a as [|a0 a].
    + destruct w as [|w0 w]; [done|]. injection E as -> _. by inversion Hw.
    + injection E as _ E. by apply (IH a).
  - apply app_eq_inv in E as [(k & -> & E)|(k & -> & E)].
    + symmetry in E. apply app_eq_inv in E as [(k' & -> & E)|(k' & -> & E)].
      * exists (a ++ w ++ k'). split; [left|]. rewrite !app_length. lia.
      * destruct k' as [|c k']; [exists (a ++ k); split; [left|]; rewrite !app_length; simpl; lia|].
        exfalso. apply Forall_app in Hw as [_ Hw]. inversion Hw; subst. by eapply Ht.
    + destruct (IH k E Hn Hw) as (v' & Hv' & Hl). exists v'. split; [by right|done].
Qed.

(** A long word makes every piece with it raise, whatever else is there *)
Lemma long_word_bad U s c a w b : s = a ++ w ++ b -> Forall (subject_word_char U) w -> 13%N ∉ w -> 12 < length w ->
  bad_chunk U (WStr s, c).
Proof.
  intros -> Hw Hr Hl. simpl. eexists _, _. split; [apply subject_runs_exist|].
  destruct (subject_runs_exist U (a ++ w ++ b)) as (t & Ht & HR & _).
  destruct (run_inside _ _ _ (no_cr a) w (no_cr b) HR) as (v & Hv & Hlv).
  - eapply blank_for_return_det; [exact Ht|]. rewrite <- (app_nil_l w) at 1.
    apply Forall2_app; [apply no_cr_spec|]. apply Forall2_app; [|apply no_cr_spec]. simpl.
    clear -Hr. induction w as [|c w IH]; constructor.
    + right. split; [|done]. intros ->. apply Hr. left.
    + apply IH. intros H. apply Hr. by right.
  - intros ->. simpl in Hl. lia.
  - done.
  - apply Exists_exists. exists v. split; [done|lia].
Qed.
