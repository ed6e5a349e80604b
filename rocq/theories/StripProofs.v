(** * Proofs about the strippers *)
From Coq Require Import String Lia.
From Verif Require Import Py Regex RegexSpec RegexProofs StripModel StripSpec.

(** ** The match that Python reports *)
Definition first (r : regex) (x w y : codes) : Prop :=
  exists g, rmatch1 r (at_ x (w ++ y)) = Some (at_ (x ++ w) y, g).

Lemma first_matches r x w y : first r x w y -> matches r x w y.
Proof.
  intros [g H]. apply rmatch1_some in H as (w' & y' & E & H & M1). apply at_inj in H as [H1 ->].
  by apply app_inv_head in H1 as ->.
Qed.

(** When the match at a place is unique, it is the reported one. *)
Lemma first_unique r : (forall x w y w' y', w ++ y = w' ++ y' -> matches r x w y -> matches r x w' y' -> w = w') ->
  forall x w y, first r x w y <-> matches r x w y.
Proof.
  intros U x w y. split; [apply first_matches|]. intros M1.
  destruct (rmatch1 r (at_ x (w ++ y))) as [[d g]|] eqn:E.
  - destruct (rmatch1_some _ _ _ _ _ E) as (w' & y' & Es & -> & M2).
    assert (w = w') as <- by by apply (U x w y w' y'). apply app_inv_head in Es as <-.
    by exists g.
  - exfalso. by apply (proj1 (rmatch1_none _ _ _) E w y).
Qed.

Lemma leftmost_first r x s k w y : leftmost (matches r) x s k w y -> first r (x ++ k) w y ->
  leftmost (first r) x s k w y.
Proof.
  intros (Es & M1 & HL) HF. split_and!; [done|done|]. intros x' w' y' Es' HF'.
  apply (HL x' w' y' Es'). by apply first_matches.
Qed.

Lemma rsearch_first r x s :
  match rsearch r (at_ x s) with
  | None => nowhere (first r) x s
  | Some (c, d, g) => exists k w y, leftmost (first r) x s k w y /\ s = k ++ w ++ y /\
      c = at_ (x ++ k) (w ++ y) /\ d = at_ (x ++ k ++ w) y /\ rmatch1 r c = Some (d, g)
  end.
Proof.
  rewrite rsearch_at. pose proof (rsearch_spec r s x) as H.
  destruct (rsearch_from r (reverse x) s) as [[[c d] g]|].
  - destruct H as (k & w & y & HL & -> & -> & HM). exists k, w, y. split_and!; try done.
    + apply leftmost_first; [done|]. exists g. by rewrite <- app_assoc.
    + by destruct HL as [-> _].
  - intros k w y Es HF. apply (H k w y Es). by apply first_matches.
Qed.

(** ** Stripping *)

Section strip.
  Context (st : stripper) (T : codes -> list pyword -> Prop).
  Hypothesis nonempty : forall x w y, first (find_start st) x w y -> w <> [].
  Hypothesis tok : forall x w y g, rmatch1 (find_start st) (at_ x (w ++ y)) = Some (at_ (x ++ w) y, g) ->
    exists ts, tokenize_start st g = Ok ts /\ T w ts.

  Lemma analyze_from_spec : forall n x s, (length s < n)%nat ->
    exists kept ws tss, analyze_from n st (at_ x s) = Ok (kept, mjoin tss) /\
      stripped (first (find_start st)) (first (find_end st)) x s kept ws /\ Forall2 T ws tss.
  Proof.
    induction n as [|n IH]; intros x s Hn; [lia|]. cbn [analyze_from].
    pose proof (rsearch_first (find_start st) x s) as HS.
    destruct (rsearch (find_start st) (at_ x s)) as [[[c d] g]|].
    2:{ exists s, [], []. split_and!; [done|by constructor|constructor]. }
    destruct HS as (k & w & y & HL & Es & -> & -> & HM). rewrite app_assoc in HM.
    destruct (tok _ _ _ _ HM) as (ts & -> & HT). cbn [rbind].
    pose proof (rsearch_first (find_end st) (x ++ k ++ w) y) as HE.
    destruct (rsearch (find_end st) (at_ (x ++ k ++ w) y)) as [[[c' d'] g']|].
    2:{ exists s, [w], [ts]. split_and!.
        - rewrite Es at 1. rewrite between_at. simpl. rewrite app_nil_r. by rewrite <- Es.
        - by econstructor.
        - by repeat constructor. }
    destruct HE as (k' & e & z & HL' & Ey & -> & -> & HM').
    assert (Hw : (0 < length w)%nat).
    { assert (w <> []) as Hw by (apply (nonempty (x ++ k) w y); by exists g). destruct w; [done|simpl; lia]. }
    destruct (IH ((x ++ k ++ w) ++ k' ++ e) z) as (kept & ws & tss & EA & HR & HF).
    { rewrite Es, Ey, !app_length in Hn. lia. }
    rewrite EA. cbn [rbind]. exists (k ++ kept), (w :: ws), (ts :: tss). split_and!.
    - rewrite Es at 1. by rewrite between_at.
    - rewrite <- !app_assoc in HR. by eapply strip_section.
    - by constructor.
  Qed.

  Lemma analyze_spec text : exists kept ws tss, analyze st text = Ok (kept, mjoin tss) /\
    stripped (first (find_start st)) (first (find_end st)) [] text kept ws /\ Forall2 T ws tss.
  Proof. unfold analyze. apply (analyze_from_spec _ []). lia. Qed.
End strip.

(** Replacing the predicates by equivalent ones. *)
Section transport.
  Context (P Q : codes -> codes -> codes -> Prop) (HPQ : forall x w y, P x w y <-> Q x w y).
  Lemma leftmost_iff x s k w y : leftmost P x s k w y -> leftmost Q x s k w y.
  Proof.
    intros (Es & HP & HL). split_and!; [done|by apply HPQ|]. intros x' w' y' E' H'.
    apply (HL x' w' y' E'). by apply HPQ.
  Qed.
  Lemma nowhere_iff x s : nowhere P x s -> nowhere Q x s.
  Proof. intros H k w y Es HQ. apply (H k w y Es). by apply HPQ. Qed.
End transport.

Lemma stripped_iff S1 S2 E1 E2 : (forall x w y, S1 x w y <-> S2 x w y) -> (forall x w y, E1 x w y <-> E2 x w y) ->
  forall x s kept ws, stripped S1 E1 x s kept ws -> stripped S2 E2 x s kept ws.
Proof.
  intros HS HE x s kept ws. induction 1.
  - constructor. by eapply nowhere_iff.
  - eapply strip_open; [by eapply leftmost_iff|by eapply nowhere_iff].
  - eapply strip_section; [by eapply leftmost_iff|by eapply leftmost_iff|done].
Qed.

(** The result of stripping is determined, when matches are. *)
Definition functional (P : codes -> codes -> codes -> Prop) : Prop :=
  forall x w y w' y', w ++ y = w' ++ y' -> P x w y -> P x w' y' -> w = w'.

Lemma leftmost_unique P x s k w y k' w' y' : functional P ->
  leftmost P x s k w y -> leftmost P x s k' w' y' -> k = k' /\ w = w' /\ y = y'.
Proof.
  intros HF H1 H2. assert (k = k') as <- by by eapply leftmost_pos_unique.
  destruct H1 as (E1 & HP1 & _), H2 as (E2 & HP2 & _). rewrite E1 in E2. apply app_inv_head in E2.
  assert (w = w') as <- by by apply (HF (x ++ k) w y w' y'). by apply app_inv_head in E2 as <-.
Qed.

Local Ltac clash := match goal with
  | H1 : leftmost ?P ?x ?s _ _ _, H2 : nowhere ?P ?x ?s |- _ => destruct (leftmost_not_nowhere _ _ _ _ _ _ H1 H2)
  end.

Lemma stripped_det Sb Se : functional Sb -> functional Se ->
  forall x s kept ws kept' ws', stripped Sb Se x s kept ws -> stripped Sb Se x s kept' ws' -> kept = kept' /\ ws = ws'.
Proof.
  intros HS HE x s kept ws kept' ws' H. revert kept' ws'.
  induction H as [x s HN|x s k w y HL HN|x s k w y k' e z kept ws HL HL' _ IH]; intros kept' ws' H'.
  - inversion H' as [|? ? k1 w1 y1 HL1 HN1|? ? k1 w1 y1 k2 e2 z2 kept1 ws1 HL1 HL2]; subst; [done|..];
      clash.
  - inversion H' as [|? ? k1 w1 y1 HL1 HN1|? ? k1 w1 y1 k2 e2 z2 kept1 ws1 HL1 HL2]; subst.
    + clash.
    + by destruct (leftmost_unique _ _ _ _ _ _ _ _ _ HS HL HL1) as (-> & -> & ->).
    + destruct (leftmost_unique _ _ _ _ _ _ _ _ _ HS HL HL1) as (-> & -> & ->).
      clash.
  - inversion H' as [|? ? k1 w1 y1 HL1 HN1|? ? k1 w1 y1 k2 e2 z2 kept1 ws1 HL1 HL2]; subst.
    + clash.
    + destruct (leftmost_unique _ _ _ _ _ _ _ _ _ HS HL HL1) as (-> & -> & ->).
      clash.
    + destruct (leftmost_unique _ _ _ _ _ _ _ _ _ HS HL HL1) as (-> & -> & ->).
      destruct (leftmost_unique _ _ _ _ _ _ _ _ _ HE HL' HL2) as (-> & -> & ->).
      by edestruct IH as [-> ->].
Qed.

(** What is kept is what was there, in order. *)
Lemma stripped_sublist Sb Se x s kept ws : stripped Sb Se x s kept ws -> kept `sublist_of` s.
Proof.
  induction 1 as [| |x s k w y k' e z kept ws (-> & _) (-> & _) _ IH]; [done..|].
  apply sublist_app; [done|]. by apply sublist_inserts_l, sublist_inserts_l, sublist_inserts_l.
Qed.

(** ** Characters *)

Lemma is_space_spec c : is_space c = true <-> blank c.
Proof.
  unfold is_space, blank. rewrite orb_true_iff, andb_true_iff, !N.leb_le, N.eqb_eq.
  rewrite !elem_of_cons, elem_of_nil. lia.
Qed.
Lemma is_space_false c : is_space c = false <-> ~ blank c.
Proof. rewrite <- is_space_spec. by destruct (is_space c). Qed.
Lemma is_word_spec c : is_word c = true <-> word_char c.
Proof.
  unfold is_word, is_num, word_char. rewrite !orb_true_iff, !andb_true_iff, !N.leb_le, N.eqb_eq. tauto.
Qed.

Lemma forallb_Forall {A} (p : A -> bool) (P : A -> Prop) : (forall c, p c = true <-> P c) ->
  forall l, forallb p l = true <-> Forall P l.
Proof.
  intros H l. induction l as [|c l IH]; simpl; [done|]. by rewrite andb_true_iff, Forall_cons, H, IH.
Qed.
Lemma spaces_spec l : forallb is_space l = true <-> Forall blank l.
Proof. apply forallb_Forall, is_space_spec. Qed.
Lemma nonspaces_spec l : forallb (fun c => negb (is_space c)) l = true <-> Forall (fun c => ~ blank c) l.
Proof. apply forallb_Forall. intros c. by rewrite negb_true_iff, is_space_false. Qed.
Lemma nongt_spec l : forallb (fun c => negb (c =? 62)%N) l = true <-> gt_free l.
Proof.
  rewrite (forallb_Forall _ (fun c => c <> 62%N)).
  - unfold gt_free. rewrite Forall_forall. split; [intros H E; by apply (H _ E)|by intros H x Hx ->].
  - intros c. by rewrite negb_true_iff, N.eqb_neq.
Qed.
Lemma is_space_gt c : blank c -> c <> 62%N.
Proof. unfold blank. rewrite !elem_of_cons, elem_of_nil. lia. Qed.
Lemma blanks_gt_free l : Forall blank l -> gt_free l.
Proof. unfold gt_free. rewrite Forall_forall. intros H E. by apply (is_space_gt _ (H _ E)). Qed.
Lemma gt_free_app a b : gt_free (a ++ b) <-> gt_free a /\ gt_free b.
Proof. unfold gt_free. rewrite elem_of_app. tauto. Qed.

(** Runs of characters of a class, ended by a character outside it. *)
Lemma run_unique (P : N -> Prop) a b c d r r' : Forall P a -> Forall P b -> ~ P c -> ~ P d ->
  a ++ c :: r = b ++ d :: r' -> a = b /\ c = d /\ r = r'.
Proof.
  intros Ha. revert b. induction Ha as [|p a Hp _ IH]; intros b Hb Hc Hd E.
  - destruct Hb as [|q b Hq _]; simpl in E; injection E as -> E; [by subst|done].
  - destruct Hb as [|q b Hq Hb]; simpl in E; injection E as -> E; [done|].
    by destruct (IH b Hb Hc Hd E) as (-> & -> & ->).
Qed.

Lemma matches_ch c x w y : matches (ch c) x w y <-> w = [c].
Proof.
  unfold ch. cbn [matches]. split.
  - intros (d & -> & E). by apply N.eqb_eq in E as ->.
  - intros ->. exists c. by rewrite N.eqb_refl.
Qed.

Lemma matches_spaces x w y : matches rspaces x w y <-> Forall blank w.
Proof. unfold rspaces. by rewrite matches_star_chars, spaces_spec. Qed.
Lemma matches_nongt x w y : matches rnongt x w y <-> gt_free w.
Proof. unfold rnongt. by rewrite matches_star_chars, nongt_spec. Qed.
Lemma matches_spaces1 x w y : matches rspaces1 x w y <-> w <> [] /\ Forall blank w.
Proof. unfold rspaces1. by rewrite matches_plus_chars, spaces_spec. Qed.
Lemma matches_nonspaces1 x w y : matches rnonspaces1 x w y <-> w <> [] /\ Forall (fun c => ~ blank c) w.
Proof. unfold rnonspaces1. by rewrite matches_plus_chars, nonspaces_spec. Qed.

Lemma matches_seq a b x w y : matches (RSeq a b) x w y <->
  exists u v, w = u ++ v /\ matches a x u (v ++ y) /\ matches b (x ++ u) v y.
Proof. done. Qed.
Lemma matches_alt a b x w y : matches (RAlt a b) x w y <-> matches a x w y \/ matches b x w y.
Proof. done. Qed.

(** ** The expressions *)

Lemma word_at_end_snoc x c : word_at_end (x ++ [c]) = is_word c.
Proof. unfold word_at_end. by rewrite last_snoc. Qed.

Lemma style_start_spec x w y : matches style_start_re x w y <-> style_start x w y.
Proof.
  unfold style_start_re, style_start. split.
  - intros (u1 & v1 & -> & H1 & u2 & v2 & -> & H2 & u3 & v3 & -> & H3 & u4 & v4 & -> & H4 & u5 & v5 & -> & H5 & H6).
    apply matches_ch in H1 as ->. apply matches_spaces in H2. apply matches_lit in H3 as ->.
    cbn [matches] in H4. destruct H4 as [-> H4]. apply matches_nongt in H5. apply matches_ch in H6 as ->.
    exists u2, u5. split_and!; [by rewrite <- ?app_assoc|done|done|]. intros c rest ->.
    change (str "style") with (str "styl" ++ [101%N]) in H4. rewrite !app_assoc, word_at_end_snoc in H4.
    simpl in H4. rewrite <- is_word_spec. by destruct (is_word c).
  - intros (sp & attrs & -> & H1 & H2 & H3).
    exists (str "<"), (sp ++ str "style" ++ attrs ++ str ">"). split_and!; [done|by apply matches_ch|].
    exists sp, (str "style" ++ attrs ++ str ">"). split_and!; [done|by apply matches_spaces|].
    exists (str "style"), (attrs ++ str ">"). split_and!; [done|by apply matches_lit|].
    exists [], (attrs ++ str ">"). split_and!; [done| |].
    + cbn [matches]. split; [done|]. change (str "style") with (str "styl" ++ [101%N]).
      rewrite !app_assoc, word_at_end_snoc. destruct attrs as [|c rest]; [done|]. simpl.
      specialize (H3 c rest eq_refl). rewrite <- is_word_spec in H3. by destruct (is_word c).
    + exists attrs, (str ">"). split_and!; [done|by apply matches_nongt|by apply matches_ch].
Qed.

Lemma gt_free_run a b r r' : gt_free a -> gt_free b -> a ++ 62%N :: r = b ++ 62%N :: r' -> a = b /\ r = r'.
Proof.
  intros Ha Hb E. destruct (run_unique (fun c => c <> 62%N) a b 62 62 r r') as (-> & _ & ->); try done.
  - apply Forall_forall. by intros ? ? ->.
  - apply Forall_forall. by intros ? ? ->.
  - by intros H.
  - by intros H.
Qed.

Lemma tag_unique (lit : codes) c0 sp a y sp' a' y' :
  Forall blank sp -> Forall blank sp' -> ~ blank c0 -> gt_free a -> gt_free a' ->
  (str "<" ++ sp ++ (c0 :: lit) ++ a ++ str ">") ++ y = (str "<" ++ sp' ++ (c0 :: lit) ++ a' ++ str ">") ++ y' ->
  sp = sp' /\ a = a'.
Proof.
  intros H1 H2 Hc H3 H4 E. rewrite <- !app_assoc in E. apply app_inv_head in E. simpl in E.
  destruct (run_unique blank _ _ _ _ _ _ H1 H2 Hc Hc E) as (-> & _ & E'). apply app_inv_head in E'.
  destruct (gt_free_run _ _ _ _ H3 H4 E') as [-> _]. done.
Qed.

Ltac not_blank := by rewrite <- is_space_spec.

Lemma style_start_functional : functional style_start.
Proof.
  intros x w y w' y' E (sp & a & -> & H1 & H2 & _) (sp' & a' & -> & H3 & H4 & _).
  destruct (tag_unique (str "tyle") 115 sp a y sp' a' y') as [-> ->]; try done. not_blank.
Qed.

Lemma style_end_spec x w y : matches style_end_re x w y <-> style_end x w y.
Proof. apply matches_lit. Qed.
Lemma style_end_functional : functional style_end.
Proof. by intros x w y w' y' _ -> ->. Qed.

Lemma comment_start_spec x w y : matches comment_start_re x w y <-> comment_start x w y.
Proof.
  unfold comment_start_re, comment_start. rewrite matches_alt, matches_lit. apply or_iff_compat_l. split.
  - intros (u1 & v1 & -> & H1 & u2 & v2 & -> & H2 & u3 & v3 & -> & H3 & u4 & v4 & -> & H4 & u5 & v5 & -> & H5 & H6).
    apply matches_ch in H1 as ->. apply matches_spaces in H2. apply matches_lit in H3 as ->.
    apply matches_spaces in H4. apply matches_nongt in H5. apply matches_ch in H6 as ->.
    exists u2, (u4 ++ u5). rewrite <- !app_assoc. split_and!; [done|done|].
    apply gt_free_app. split; [by apply blanks_gt_free|done].
  - intros (sp & attrs & -> & H1 & H2).
    exists (str "<"), (sp ++ str "comment" ++ attrs ++ str ">"). split_and!; [done|by apply matches_ch|].
    exists sp, (str "comment" ++ attrs ++ str ">"). split_and!; [done|by apply matches_spaces|].
    exists (str "comment"), (attrs ++ str ">"). split_and!; [done|by apply matches_lit|].
    exists [], (attrs ++ str ">"). split_and!; [done|by apply matches_spaces|].
    exists attrs, (str ">"). split_and!; [done|by apply matches_nongt|by apply matches_ch].
Qed.

Lemma comment_start_functional : functional comment_start.
Proof.
  assert (D : forall sp a y y', Forall blank sp ->
    str "<!--" ++ y = (str "<" ++ sp ++ str "comment" ++ a ++ str ">") ++ y' -> False).
  { intros sp a y y' H E. simpl in E. injection E as E. destruct H as [|c sp Hc _]; simpl in E; [done|].
    injection E as <- E. by apply is_space_spec in Hc. }
  intros x w y w' y' E [-> |(sp & a & -> & H1 & H2)] [-> |(sp' & a' & -> & H3 & H4)].
  - done.
  - exfalso. by eapply D.
  - exfalso. by eapply D.
  - destruct (tag_unique (str "omment") 99 sp a y sp' a' y') as [-> ->]; try done. not_blank.
Qed.

Lemma comment_end_spec x w y : matches comment_end_re x w y <-> comment_end x w y.
Proof. unfold comment_end_re, comment_end. by rewrite matches_alt, !matches_lit. Qed.
Lemma comment_end_functional : functional comment_end.
Proof. by intros x w y w' y' E [-> | ->] [-> | ->]. Qed.

Lemma noframes_start_spec x w y : matches noframes_start_re x w y <-> noframes_start x w y.
Proof.
  unfold noframes_start_re, noframes_start. split.
  - intros (u1 & v1 & -> & H1 & u2 & v2 & -> & H2 & u3 & v3 & -> & H3 & u4 & v4 & -> & H4 & H5).
    apply matches_ch in H1 as ->. apply matches_spaces in H2. apply matches_lit in H3 as ->.
    apply matches_spaces in H4. apply matches_ch in H5 as ->. by exists u2, u4.
  - intros (sp & sp' & -> & H1 & H2).
    exists (str "<"), (sp ++ str "noframes" ++ sp' ++ str ">"). split_and!; [done|by apply matches_ch|].
    exists sp, (str "noframes" ++ sp' ++ str ">"). split_and!; [done|by apply matches_spaces|].
    exists (str "noframes"), (sp' ++ str ">"). split_and!; [done|by apply matches_lit|].
    exists sp', (str ">"). split_and!; [done|by apply matches_spaces|by apply matches_ch].
Qed.
Lemma noframes_start_functional : functional noframes_start.
Proof.
  intros x w y w' y' E (sp & a & -> & H1 & H2) (sp' & a' & -> & H3 & H4).
  destruct (tag_unique (str "oframes") 110 sp a y sp' a' y') as [-> ->]; try done.
  - not_blank.
  - by apply blanks_gt_free.
  - by apply blanks_gt_free.
Qed.
Lemma noframes_end_spec x w y : matches noframes_end_re x w y <-> noframes_end x w y.
Proof.
  unfold noframes_end_re, noframes_end. split.
  - intros (u1 & v1 & -> & H1 & u2 & v2 & -> & H2 & H3).
    apply matches_lit in H1 as ->. apply matches_spaces in H2. apply matches_ch in H3 as ->. by exists u2.
  - intros (sp & -> & H). exists (str "</noframes"), (sp ++ str ">"). split_and!; [done|by apply matches_lit|].
    exists sp, (str ">"). split_and!; [done|by apply matches_spaces|by apply matches_ch].
Qed.
Lemma noframes_end_functional : functional noframes_end.
Proof.
  intros x w y w' y' E (sp & -> & H) (sp' & -> & H'). rewrite <- !app_assoc in E. apply app_inv_head in E.
  by destruct (gt_free_run _ _ _ _ (blanks_gt_free _ H) (blanks_gt_free _ H') E) as [-> _].
Qed.

(** First match and predicate. *)
Lemma first_spec r P : (forall x w y, matches r x w y <-> P x w y) -> functional P ->
  forall x w y, first r x w y <-> P x w y.
Proof.
  intros H HF x w y. rewrite <- H. apply first_unique. intros x' w1 y1 w2 y2 E H1 H2.
  apply H in H1, H2. by apply (HF x' w1 y1 w2 y2).
Qed.

(** ** URLs *)

(** The end of the reported match of a sequence comes from its last part. *)
Lemma head_flat_map {A B} (f : A -> list B) l b : head (flat_map f l) = Some b -> exists a, a ∈ l /\ head (f a) = Some b.
Proof.
  induction l as [|a l IH]; simpl; [done|]. destruct (f a) as [|b' l'] eqn:E; simpl.
  - intros H. destruct (IH H) as (a' & Ha & Hb). exists a'. split; [by right|done].
  - intros [= ->]. exists a. split; [left|]. by rewrite E.
Qed.
Lemma head_fmap {A B} (f : A -> B) l b : head (f <$> l) = Some b -> exists a, head l = Some a /\ b = f a.
Proof. destruct l; [done|]. intros [= <-]. by eexists. Qed.

Lemma rmatch1_seq a b c e g : rmatch1 (RSeq a b) c = Some (e, g) ->
  exists d g1 g2, (d, g1) ∈ rmatch a c /\ rmatch1 b d = Some (e, g2) /\ g = g2 ++ g1.
Proof.
  unfold rmatch1. simpl. intros H. apply head_flat_map in H as ([d g1] & H1 & H2).
  apply head_fmap in H2 as ([e' g2] & H2 & E). injection E as -> ->. by exists d, g1, g2.
Qed.
Lemma elem_of_group n a c d g : (d, g) ∈ rmatch (RGroup n a) c ->
  exists g1, g = (n, between c d) :: g1 /\ (d, g1) ∈ rmatch a c.
Proof. simpl. intros H. apply elem_of_list_fmap in H as ([d' g1] & E & H). injection E as -> ->. by exists g1. Qed.
Lemma rmatch1_group n a c e g : rmatch1 (RGroup n a) c = Some (e, g) ->
  exists g1, rmatch1 a c = Some (e, g1) /\ g = (n, between c e) :: g1.
Proof.
  unfold rmatch1. simpl. intros H. apply head_fmap in H as ([e' g1] & H & E). injection E as -> ->. by exists g1.
Qed.

(** A repetition of characters runs as far as it can. *)
Lemma star_chars_maximal p : forall n c e g, (length (post c) <= n)%nat ->
  head (star (rmatch (RChr p)) n c) = Some (e, g) -> forall ch rest, post e = ch :: rest -> p ch = false.
Proof.
  induction n as [|n IH]; intros c e g Hn H ch rest Hp.
  - simpl in H. injection H as -> _. rewrite Hp in Hn. simpl in Hn. lia.
  - cbn [star rmatch] in H. destruct (post c) as [|x t] eqn:Ec; simpl in H.
    { injection H as -> _. congruence. }
    destruct (p x) eqn:Px; simpl in H.
    + destruct (Nat.ltb_spec (length t) (S (length t))) as [_|]; [|lia].
      rewrite app_nil_r in H. fold (rmatch (RChr p)) in H.
      change (fun c => match post c with [] => [] | x :: t => if p x then [(Cur (x :: pre c) t, [])] else [] end)
        with (rmatch (RChr p)) in H.
      destruct (star (rmatch (RChr p)) n (Cur (x :: pre c) t)) as [|[e0 g0] l] eqn:Es; simpl in H.
      * exfalso. destruct n; simpl in Es; [done|]. by apply app_nil in Es as [_ ?].
      * injection H as -> _. apply (IH (Cur (x :: pre c) t) e g0) with (rest := rest); [simpl in *; lia| |done].
        by rewrite Es.
    + injection H as -> _. by rewrite Ec in Hp; injection Hp as -> _.
Qed.

Lemma plus_chars_maximal p c e g : rmatch1 (rplus (RChr p)) c = Some (e, g) ->
  forall ch rest, post e = ch :: rest -> p ch = false.
Proof.
  intros H. apply rmatch1_seq in H as (d & g1 & g2 & _ & H & _).
  by apply (star_chars_maximal p (length (post d)) d e g2).
Qed.

Lemma url_char_spec c : url_char c = true <-> ~ url_stop c.
Proof.
  unfold url_char, url_stop. rewrite negb_true_iff, !orb_false_iff, is_space_false, !N.eqb_neq, N.leb_gt.
  rewrite !elem_of_cons, elem_of_nil. split; [|intros H; split_and!; [tauto|..]; lia].
  intros H [H1|[H1|H1]]; [tauto|lia|lia].
Qed.
Lemma url_char_false c : url_char c = false <-> url_stop c.
Proof.
  pose proof (url_char_spec c) as H. destruct (url_char c); [|].
  - split; [done|]. intros H1. by destruct (proj1 H eq_refl).
  - split; [|done]. intros _. unfold url_stop in *.
    destruct (decide (blank c)) as [|H1]; [by left|].
    destruct (decide (c ∈ [60%N; 62%N; 34%N; 39%N])) as [|H2]; [by right; left|].
    destruct (decide (127 <= c)%N) as [|H3]; [by right; right|].
    exfalso. enough (false = true) by done. apply H. tauto.
Qed.

Lemma proto_spec x w y : matches (RAlt (RSeq (rlit (str "http")) (ropt (ch 115))) (rlit (str "ftp"))) x w y <->
  w ∈ protocols.
Proof.
  rewrite matches_alt, matches_lit. unfold protocols. rewrite !elem_of_cons, elem_of_nil. split.
  - intros [(u & v & -> & H1 & H2)| -> ]; [|tauto]. apply matches_lit in H1 as ->.
    apply matches_opt in H2 as [H2| -> ]; [|by left]. apply matches_ch in H2 as ->. by right; left.
  - intros [-> |[-> |[-> |[]]]].
    + left. exists (str "http"), []. split_and!; [done|by apply matches_lit|]. by apply matches_opt; right.
    + left. exists (str "http"), (str "s"). split_and!; [done|by apply matches_lit|].
      apply matches_opt; left. by apply matches_ch.
    + by right.
Qed.

Lemma url_re_matches x w y : matches url_re x w y <-> exists proto guts, is_url w proto guts.
Proof.
  unfold url_re, is_url. rewrite matches_seq. split.
  - intros (u & v & -> & H1 & u2 & v2 & -> & H2 & H3). apply proto_spec in H1. apply matches_lit in H2 as ->.
    cbn [matches] in H3. apply matches_plus_chars in H3 as [H3 H4].
    exists u, v2. split_and!; [done|done|done|]. by apply (forallb_Forall _ _ url_char_spec).
  - intros (proto & guts & -> & H1 & H2 & H3). exists proto, (str "://" ++ guts).
    split_and!; [done|by apply proto_spec|]. exists (str "://"), guts.
    split_and!; [done|by apply matches_lit|]. apply matches_plus_chars. split; [done|].
    by apply (forallb_Forall _ _ url_char_spec).
Qed.

Lemma proto_unique p p' a a' : p ∈ protocols -> p' ∈ protocols -> p ++ str "://" ++ a = p' ++ str "://" ++ a' -> p = p' /\ a = a'.
Proof.
  unfold protocols. rewrite !elem_of_cons, !elem_of_nil.
  intros [-> |[-> |[-> |[]]]] [-> |[-> |[-> |[]]]] E;
    first [apply app_inv_head in E; apply app_inv_head in E; by subst | by exfalso; vm_compute in E].
Qed.

Lemma maximal_run (P : N -> Prop) a b r r' : Forall P a -> Forall P b ->
  (forall c t, r = c :: t -> ~ P c) -> (forall c t, r' = c :: t -> ~ P c) -> a ++ r = b ++ r' -> a = b.
Proof.
  intros Ha. revert b. induction Ha as [|p a Hp _ IH]; intros b Hb H1 H2 E; destruct Hb as [|q b Hq Hb]; simpl in E.
  - done.
  - subst r. exfalso. by apply (H1 q (b ++ r')).
  - subst r'. exfalso. by apply (H2 p (a ++ r)).
  - injection E as -> E. f_equal. by apply IH.
Qed.

Lemma url_functional : functional url_here.
Proof.
  intros x w y w' y' E ((p & g & -> & H1 & H2 & H3) & H4) ((p' & g' & -> & H1' & H2' & H3') & H4').
  rewrite <- !app_assoc in E. destruct (proto_unique _ _ _ _ H1 H1' E) as [-> E']. f_equal. f_equal.
  apply (maximal_run (fun c => ~ url_stop c) g g' y y'); try done.
  - intros c t Hc H. apply H. by apply (H4 c t).
  - intros c t Hc H. apply H. by apply (H4' c t).
Qed.

(** An expression without groups captures nothing. *)
Fixpoint groupless (r : regex) : bool :=
  match r with
  | RSeq a b | RAlt a b => groupless a && groupless b
  | RStar a => groupless a
  | RGroup _ _ => false
  | _ => true
  end.
Lemma star_groupless f : (forall c d g, (d, g) ∈ f c -> g = []) -> forall n c d g, (d, g) ∈ star f n c -> g = [].
Proof.
  intros Hf. induction n as [|n IH]; intros c d g H; simpl in H.
  - apply elem_of_list_singleton in H. by injection H.
  - apply elem_of_app in H as [H|H].
    + apply elem_flat_map in H as ([d1 g1] & H1 & H2). destruct (_ <? _)%nat; [|by apply elem_of_nil in H2].
      apply elem_of_list_fmap in H2 as ([e h] & E & H2). injection E as -> ->.
      by rewrite (Hf _ _ _ H1), (IH _ _ _ H2).
    + apply elem_of_list_singleton in H. by injection H.
Qed.
Lemma groupless_caps r : groupless r = true -> forall c d g, (d, g) ∈ rmatch r c -> g = [].
Proof.
  induction r as [|p|a IHa b IHb|a IHa b IHb|a IHa|n a IHa| | | |a IHa]; intros Hr c d g H; simpl in Hr, H.
  - apply elem_of_list_singleton in H. by injection H.
  - destruct (post c); [by apply elem_of_nil in H|]. destruct (p _); [|by apply elem_of_nil in H].
    apply elem_of_list_singleton in H. by injection H.
  - apply andb_true_iff in Hr as [Ra Rb]. apply elem_flat_map in H as ([d1 g1] & H1 & H2).
    apply elem_of_list_fmap in H2 as ([e h] & E & H2). injection E as -> ->.
    by rewrite (IHa Ra _ _ _ H1), (IHb Rb _ _ _ H2).
  - apply andb_true_iff in Hr as [Ra Rb]. apply elem_of_app in H as [H|H]; [by eapply IHa|by eapply IHb].
  - eapply star_groupless; [by apply IHa|exact H].
  - done.
  - destruct (at_bol c); [|by apply elem_of_nil in H]. apply elem_of_list_singleton in H. by injection H.
  - destruct (at_eol c); [|by apply elem_of_nil in H]. apply elem_of_list_singleton in H. by injection H.
  - destruct (at_wordb c); [|by apply elem_of_nil in H]. apply elem_of_list_singleton in H. by injection H.
  - destruct (rmatch a c); [|by apply elem_of_nil in H]. apply elem_of_list_singleton in H. by injection H.
Qed.
Lemma rmatch1_in r c d g : rmatch1 r c = Some (d, g) -> (d, g) ∈ rmatch r c.
Proof. unfold rmatch1. destruct (rmatch r c); [done|]. intros [= ->]. left. Qed.

(** What the groups of the URL expression hold. *)
Lemma url_re_first x w y g : rmatch1 url_re (at_ x (w ++ y)) = Some (at_ (x ++ w) y, g) ->
  exists proto guts, is_url w proto guts /\ (forall c rest, y = c :: rest -> url_stop c) /\
    the_group 1 g = proto /\ the_group 2 g = guts.
Proof.
  unfold url_re. intros H. apply rmatch1_seq in H as (d & g1 & g2 & H1 & H & ->).
  apply elem_of_group in H1 as (g1' & -> & H1).
  destruct (proj1 (results_matches _ x _) _ _ H1) as (u & y1 & Es & -> & M1). apply proto_spec in M1.
  apply rmatch1_seq in H as (d & g3 & g4 & H3 & H & ->).
  destruct (proj1 (results_matches _ _ _) _ _ H3) as (u2 & y2 & Es2 & -> & M2).
  apply matches_lit in M2 as ->. subst y1.
  apply rmatch1_group in H as (g5 & H & ->).
  pose proof (plus_chars_maximal _ _ _ _ H) as HM.
  destruct (rmatch1_some _ _ _ _ _ H) as (u3 & y3 & -> & E & M3). apply at_inj in E as [E <-].
  apply matches_plus_chars in M3 as [M3 M4].
  assert (w = u ++ str "://" ++ u3) as ->.
  { rewrite <- !app_assoc in E. by apply app_inv_head in E. }
  exists u, u3. split_and!.
  - split_and!; [done|done|done|]. by apply (forallb_Forall _ _ url_char_spec).
  - intros c rest Hy. apply url_char_false. by apply (HM c rest).
  - rewrite (groupless_caps (rplus (RChr url_char)) eq_refl _ _ _ (rmatch1_in _ _ _ _ H)),
      (groupless_caps (rlit (str "://")) eq_refl _ _ _ H3).
    unfold the_group. cbn [app group Nat.eqb from_option]. rewrite Es. apply between_at.
  - unfold the_group. cbn [app group Nat.eqb from_option].
    transitivity (between (at_ ((x ++ u) ++ str "://") (u3 ++ y)) (at_ (((x ++ u) ++ str "://") ++ u3) y)).
    + by rewrite E.
    + apply between_at.
Qed.

Lemma url_first x w y : first url_re x w y <-> url_here x w y.
Proof.
  split.
  - intros [g H]. destruct (url_re_first _ _ _ _ H) as (p & gu & HU & HM & _). split; [by exists p, gu|done].
  - intros HU. destruct (rmatch1 url_re (at_ x (w ++ y))) as [[d g]|] eqn:E.
    + destruct (rmatch1_some _ _ _ _ _ E) as (w' & y' & Es & -> & M1). rewrite Es in E.
      destruct (url_re_first _ _ _ _ E) as (p & gu & HU' & HM & _).
      assert (w = w') as <- by (apply (url_functional x w y w' y'); [done|done|]; split; [by exists p, gu|done]).
      apply app_inv_head in Es as <-. by exists g.
    + exfalso. destruct HU as [HU _]. apply (proj1 (rmatch1_none _ _ _) E w y eq_refl). by apply url_re_matches.
Qed.

(** ** The strippers *)

Lemma nonempty_app (a b : codes) : a <> [] -> a ++ b <> [].
Proof. by destruct a. Qed.

Lemma plain_stripper rs re Sb Se : (forall x w y, first rs x w y <-> Sb x w y) -> (forall x w y, first re x w y <-> Se x w y) ->
  (forall x w y, Sb x w y -> w <> []) ->
  forall text, exists kept ws, analyze (Stripper rs re no_tokens) text = Ok (kept, []) /\ stripped Sb Se [] text kept ws.
Proof.
  intros HS HE HN text.
  destruct (analyze_spec (Stripper rs re no_tokens) (fun _ ts => ts = [])) with (text := text)
    as (kept & ws & tss & EA & HR & HF).
  - intros x w y H. apply HS in H. by eapply HN.
  - intros x w y g _. by exists [].
  - exists kept, ws. rewrite EA. split; [|by eapply stripped_iff].
    repeat f_equal. clear -HF. induction HF as [|w ts ws tss -> _ IH]; [done|]. exact IH.
Qed.

Lemma style_strip text : exists kept ws, analyze StyleStripper text = Ok (kept, []) /\ stripped style_start style_end [] text kept ws.
Proof.
  apply plain_stripper.
  - apply first_spec; [apply style_start_spec|apply style_start_functional].
  - apply first_spec; [apply style_end_spec|apply style_end_functional].
  - by intros x w y (sp & a & -> & _).
Qed.
Lemma comment_strip text : exists kept ws, analyze CommentStripper text = Ok (kept, []) /\ stripped comment_start comment_end [] text kept ws.
Proof.
  apply plain_stripper.
  - apply first_spec; [apply comment_start_spec|apply comment_start_functional].
  - apply first_spec; [apply comment_end_spec|apply comment_end_functional].
  - by intros x w y [-> |(sp & a & -> & _)].
Qed.
Lemma noframes_strip text : exists kept ws, analyze NoframesStripper text = Ok (kept, []) /\ stripped noframes_start noframes_end [] text kept ws.
Proof.
  apply plain_stripper.
  - apply first_spec; [apply noframes_start_spec|apply noframes_start_functional].
  - apply first_spec; [apply noframes_end_spec|apply noframes_end_functional].
  - by intros x w y (sp & a & -> & _).
Qed.

(** ** URL tokens *)

Lemma at_once_first x w y : first empty_re x w y <-> at_once x w y.
Proof.
  apply first_spec; [done|]. by intros x' w1 y1 w2 y2 _ -> ->.
Qed.

Lemma split_on_ne p s : split_on p s <> [].
Proof. destruct s; simpl; [done|]. destruct (p _); [done|]. by destruct (split_on p s). Qed.

(** Splitting at a class of characters, twice. *)
Lemma weave_cons c cs c0 seps : weave ((c0 :: c) :: cs) seps = c0 :: weave (c :: cs) seps.
Proof. by destruct seps. Qed.

Lemma is_urlsep_spec c : is_urlsep c = true <-> c ∈ str ";?:@&=+,$.".
Proof.
  unfold is_urlsep. rewrite existsb_exists. split.
  - intros (d & H & E). apply N.eqb_eq in E as ->. by apply elem_of_list_In.
  - intros H. exists c. split; [by apply elem_of_list_In|apply N.eqb_refl].
Qed.
Lemma url_sep_cases c : url_sep c <-> c = 47%N \/ is_urlsep c = true.
Proof.
  rewrite is_urlsep_spec. unfold url_sep. change (str "/;?:@&=+,$.") with (47%N :: str ";?:@&=+,$.").
  by rewrite elem_of_cons.
Qed.

Lemma chunked_split guts : chunked guts (flat_map (split_on is_urlsep) (split_on (N.eqb 47) guts)).
Proof.
  induction guts as [|c guts IH].
  - exists []. split_and!; [done|constructor|by repeat constructor|done].
  - destruct IH as (seps & HL & HS & HC & E). cbn [split_on]. destruct (N.eqb_spec 47 c) as [<-|Hc].
    + exists (47%N :: seps). cbn [flat_map split_on app]. split_and!.
      * simpl. by rewrite HL.
      * constructor; [|done]. apply url_sep_cases. by left.
      * by constructor.
      * simpl. by rewrite <- E.
    + destruct (split_on (N.eqb 47) guts) as [|p ps] eqn:Ep; [by apply split_on_ne in Ep|].
      cbn [flat_map] in *. cbn [split_on]. destruct (is_urlsep c) eqn:Hs.
      * exists (c :: seps). cbn [app]. split_and!.
        -- simpl. by rewrite HL.
        -- constructor; [|done]. apply url_sep_cases. by right.
        -- by constructor.
        -- simpl. by rewrite <- E.
      * destruct (split_on is_urlsep p) as [|q qs] eqn:Eq; [by apply split_on_ne in Eq|].
        cbn [app] in *. exists seps. split_and!; [done|done| |].
        -- inversion HC; subst. constructor; [|done]. constructor; [|done].
           rewrite url_sep_cases, Hs. intros [H|H]; by subst.
        -- rewrite E. symmetry. exact (weave_cons q _ c seps).
Qed.

Lemma chunked_unique guts cs cs' : chunked guts cs -> chunked guts cs' -> cs = cs'.
Proof.
  intros (seps & HL & HS & HC & E) (seps' & HL' & HS' & HC' & E'). rewrite E in E'. clear E guts.
  revert cs' seps' HL' HS' HC' seps HL HS E'.
  induction HC as [|c cs Hc Hcs IH]; intros cs' seps' HL' HS' HC' seps HL HS E'; [done|].
  destruct HC' as [|c' cs' Hc' Hcs']; [done|].
  destruct HS as [|s seps Hs HS], HS' as [|s' seps' Hs' HS']; simpl in HL, HL', E'.
  - destruct cs; [|done]. destruct cs'; [|done]. by rewrite E'.
  - exfalso. rewrite E' in Hc. apply Forall_app in Hc as [_ Hc]. inversion Hc; subst; done.
  - exfalso. rewrite <- E' in Hc'. apply Forall_app in Hc' as [_ Hc']. inversion Hc'; subst; done.
  - destruct (run_unique (fun c => ~ url_sep c) _ _ _ _ _ _ Hc Hc' (fun H => H Hs) (fun H => H Hs') E') as (-> & -> & E2).
    f_equal. eapply (IH cs' seps'); try done; lia.
Qed.

Lemma url_tokens_spec w proto guts : is_url w proto guts -> url_token_list w (url_tokens proto guts).
Proof.
  intros H. exists proto, guts, (flat_map (split_on is_urlsep) (split_on (N.eqb 47) guts)).
  split_and!; [done|apply chunked_split|]. unfold url_tokens. f_equal.
  induction (split_on (N.eqb 47) guts) as [|p ps IH]; [done|]. cbn [flat_map]. by rewrite fmap_app, <- IH.
Qed.

Lemma url_strip text : exists kept ws (tss : list (list pyword)), analyze URLStripper text = Ok (kept, mjoin tss) /\
  stripped url_here at_once [] text kept ws /\ Forall2 url_token_list ws tss.
Proof.
  destruct (analyze_spec URLStripper url_token_list) with (text := text) as (kept & ws & tss & EA & HR & HF).
  - intros x w y H. apply url_first in H as [(p & g & -> & Hp & _) _].
    unfold protocols in Hp. rewrite !elem_of_cons, elem_of_nil in Hp. by destruct Hp as [-> |[-> |[-> |[]]]].
  - intros x w y g H. destruct (url_re_first _ _ _ _ H) as (p & gu & HU & _ & E1 & E2).
    eexists. split; [done|]. rewrite E1, E2. by apply url_tokens_spec.
  - exists kept, ws, tss. split_and!; [done| |done]. eapply stripped_iff; [apply url_first|apply at_once_first|done].
Qed.

Lemma slurp_tokens_eq p g : slurp_tokens p g = Ok (url_tokens p g).
Proof. done. Qed.
Lemma slurp_strip text : analyze SlurpingURLStripper text = analyze URLStripper text.
Proof.
  unfold analyze. generalize (S (length text)), (start text). intros n. induction n as [|n IH]; intros c; [done|].
  cbn [analyze_from]. cbn [find_start find_end tokenize_start SlurpingURLStripper URLStripper].
  destruct (rsearch url_re c) as [[[s e] g]|]; [|done]. rewrite slurp_tokens_eq. cbn [rbind].
  destruct (rsearch empty_re e) as [[[s' e'] g']|]; [|done]. by rewrite IH.
Qed.

(** ** uuencoded sections *)

Lemma uu_begin_spec x w y : matches uuencode_begin_re x w y <-> uu_begin x w y.
Proof.
  unfold uuencode_begin_re, uu_begin. split.
  - intros (u0 & v0 & -> & [-> H0] & u1 & v1 & -> & H1 & u2 & v2 & -> & H2 & u3 & v3 & -> & H3 & u4 & v4 & -> & H4 &
            u5 & v5 & -> & H5 & u6 & v6 & -> & H6 & [-> H7]).
    apply matches_lit in H1 as ->. apply matches_spaces1 in H2 as [H2 H2']. cbn [matches] in H3, H5.
    apply matches_nonspaces1 in H3 as [H3 H3']. apply matches_spaces1 in H4 as [H4 H4'].
    apply matches_nonspaces1 in H5 as [H5 H5']. apply matches_spaces in H6.
    exists u2, u3, u4, u5, u6. rewrite !app_nil_l, !app_nil_r, !Forall_app. by split_and!.
  - intros (sp & mode & sp' & name & sp'' & -> & N1 & N2 & N3 & N4 & HB & HN & Hx & Hy).
    rewrite !Forall_app in HB. rewrite Forall_app in HN. destruct HB as (B1 & B2 & B3), HN as (W1 & W2).
    eexists [], _. split_and!; [done|done|]. eexists (str "begin"), _. split_and!; [done|by apply matches_lit|].
    exists sp, (mode ++ sp' ++ name ++ sp''). split_and!; [done|by apply matches_spaces1|].
    exists mode, (sp' ++ name ++ sp''). split_and!; [done|by apply matches_nonspaces1|].
    exists sp', (name ++ sp''). split_and!; [done|by apply matches_spaces1|].
    exists name, sp''. split_and!; [done|by apply matches_nonspaces1|].
    exists sp'', []. split_and!; [by rewrite app_nil_r|by apply matches_spaces|]. by split.
Qed.

Lemma uu_strip text : (~ occurs uu_begin text -> analyze UUencodeStripper text = Ok (text, [])) /\
  (occurs uu_begin text -> analyze UUencodeStripper text = Err TypeError).
Proof.
  unfold analyze. cbn [analyze_from]. cbn [find_start UUencodeStripper].
  pose proof (rsearch_spec uuencode_begin_re text []) as H. change (start text) with (at_ [] text).
  rewrite rsearch_at. destruct (rsearch_from uuencode_begin_re (reverse []) text) as [[[c d] g]|].
  - destruct H as (k & w & y & (Es & M1 & _) & _). split; [|done]. intros HN. exfalso. apply HN.
    exists k, w, y. split; [done|]. by apply uu_begin_spec.
  - split; [done|]. intros HO. exfalso. apply (nowhere_occurs (matches uuencode_begin_re) text); [done|].
    destruct HO as (k & w & y & Es & HU). exists k, w, y. split; [done|]. by apply uu_begin_spec.
Qed.

(** ** Consequences *)

Lemma no_start_unchanged Sb Se text kept ws : functional Sb -> functional Se -> ~ occurs Sb text ->
  stripped Sb Se [] text kept ws -> kept = text /\ ws = [].
Proof.
  intros HS HE HN H. eapply stripped_det; [exact HS|exact HE|exact H|]. constructor. by apply nowhere_occurs.
Qed.

Lemma at_once_functional : functional at_once.
Proof. by intros x w y w' y' _ -> ->. Qed.

(** A text that is one URL. *)
Lemma url_alone p guts : is_url (p ++ str "://" ++ guts) p guts ->
  stripped url_here at_once [] (p ++ str "://" ++ guts) [] [p ++ str "://" ++ guts].
Proof.
  intros HU. set (w := p ++ str "://" ++ guts).
  change (stripped url_here at_once [] w ([] ++ []) [w]).
  apply (strip_section _ _ [] w [] w [] [] [] []).
  - split_and!; [by rewrite app_nil_r|split; [by exists p, guts|done]|]. intros. simpl. lia.
  - split_and!; [done|done|]. intros. simpl. lia.
  - constructor. intros k w' y E [(p' & g' & -> & Hp & Hne & _) _]. symmetry in E.
    apply app_nil in E as [_ E]. apply app_nil in E as [E _]. apply app_nil in E as [_ E]. by apply app_nil in E as [_ E].
Qed.

Lemma url_alone_tokens p guts : is_url (p ++ str "://" ++ guts) p guts ->
  exists chunks, chunked guts chunks /\ analyze URLStripper (p ++ str "://" ++ guts) =
    Ok ([], WBytes (str "proto:" ++ p) :: ((fun c => WBytes (str "url:" ++ c)) <$> chunks)).
Proof.
  intros HU. destruct (url_strip (p ++ str "://" ++ guts)) as (kept & ws & tss & EA & HR & HF).
  destruct (stripped_det _ _ url_functional at_once_functional _ _ _ _ _ _ HR (url_alone p guts HU)) as [-> ->].
  inversion HF as [|? ts ? tss' HT HF']; subst. inversion HF'; subst. rewrite EA.
  destruct HT as (p' & g' & chunks & (E & Hp' & _) & HC & ->). destruct HU as (_ & Hp & _).
  destruct (proto_unique _ _ _ _ Hp Hp' E) as [-> ->]. exists chunks. split; [done|]. simpl. by rewrite app_nil_r.
Qed.

Lemma weave_snoc cs seps c : length cs = S (length seps) -> weave (cs ++ [[]]) (seps ++ [c]) = weave cs seps ++ [c].
Proof.
  revert seps. induction cs as [|d cs IH]; intros [|s seps] H; simpl in *; try lia.
  - destruct cs; [done|simpl in H; lia].
  - rewrite IH by lia. by rewrite <- app_assoc.
Qed.

Lemma chunked_snoc guts chunks c : chunked guts chunks -> url_sep c -> chunked (guts ++ [c]) (chunks ++ [[]]).
Proof.
  intros (seps & HL & HS & HC & ->) Hc. exists (seps ++ [c]). split_and!.
  - rewrite !app_length. simpl. lia.
  - apply Forall_app. split; [done|]. by apply Forall_singleton.
  - apply Forall_app. split; [done|]. by apply Forall_singleton.
  - by rewrite weave_snoc.
Qed.

Lemma trailing_separator p guts c kept ts : is_url (p ++ str "://" ++ guts) p guts -> c ∈ str ".:?/" ->
  analyze URLStripper (p ++ str "://" ++ guts) = Ok (kept, ts) ->
  analyze URLStripper (p ++ str "://" ++ guts ++ [c]) = Ok (kept, ts ++ [WBytes (str "url:")]).
Proof.
  intros HU Hc EA. destruct (url_alone_tokens p guts HU) as (chunks & HC & EA'). rewrite EA in EA'.
  injection EA' as -> ->.
  assert (Hs : url_sep c).
  { unfold url_sep. revert Hc. simpl str. rewrite !elem_of_cons, elem_of_nil.
    intros [-> |[-> |[-> |[-> |[]]]]]; apply (bool_decide_unpack _); by vm_compute. }
  destruct (url_alone_tokens p (guts ++ [c])) as (chunks' & HC' & ->).
  { destruct HU as (_ & H1 & H2 & H3). split_and!; [done|done|by destruct guts|].
    apply Forall_app. split; [done|]. constructor; [|done]. revert Hc. simpl str. rewrite !elem_of_cons, elem_of_nil.
    intros [-> |[-> |[-> |[-> |[]]]]]; rewrite <- url_char_spec; done. }
  rewrite (chunked_unique _ _ _ HC' (chunked_snoc _ _ _ HC Hs)). by rewrite fmap_app.
Qed.
