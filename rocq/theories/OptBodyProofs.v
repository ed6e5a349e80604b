(** * Proofs about the optional tokens of a body *)
From Coq Require Import String.
From Verif Require Import Py Regex RegexSpec RegexProofs StripModel StripSpec StripProofs MessageModel TokenModel TokenSpec
  TokenProofs HeadModel HeadSpec HeadProofs MailSpec MailProofs OptModel OptSpec.

(** ** URLs without protocol *)
Lemma bare_ahead_spec name x w y : matches (bare_ahead name) x w y <->
  w = [] /\ exists c z, y = name ++ c :: z /\ ~ url_stop c /\ c <> 46%N.
Proof.
  unfold bare_ahead. set (r := RSeq (rlit name) _).
  assert (forall v z, matches r x v z <-> exists c, v = name ++ [c] /\ ~ url_stop c /\ c <> 46%N) as HR.
  { intros v z. unfold r. split.
    - intros (u & v' & -> & H1 & c & -> & H2). apply matches_lit in H1 as ->. apply andb_true_iff in H2 as [H2 H3].
      exists c. split; [done|]. split; [by apply url_char_spec|]. apply negb_true_iff, N.eqb_neq in H3. done.
    - intros (c & -> & H2 & H3). exists name, [c]. split_and!; [done|by apply matches_lit|]. exists c. split; [done|].
      apply andb_true_iff. split; [by apply url_char_spec|]. by apply negb_true_iff, N.eqb_neq. }
  clearbody r. cbn [matches]. split.
  - intros [-> H]. split; [done|]. destruct (rmatch1 r (at_ x y)) as [[d g]|] eqn:ER.
    + destruct (rmatch1_some _ _ _ _ _ ER) as (v & z & -> & _ & HM). apply HR in HM as (c & -> & H1 & H2).
      exists c, z. rewrite <- app_assoc. done.
    + exfalso. apply (H [] y eq_refl). split; [done|]. by apply rmatch1_none.
  - intros [-> (c & z & -> & H1 & H2)]. split; [done|]. intros v z' E [-> H]. simpl in E. subst z'.
    apply (H (name ++ [c]) z); [by rewrite <- app_assoc|]. apply HR. by exists c.
Qed.

(** What comes first extends to the end of the run. *)
Lemma run_covers (P : N -> Prop) a z w y : Forall P a -> (forall c t, y = c :: t -> ~ P c) -> w ++ y = a ++ z ->
  exists rest, w = a ++ rest.
Proof.
  intros Ha Hy E. apply app_eq_inv in E as [(k & -> & _)|(k & -> & E)]; [by exists k|].
  destruct k as [|c k]; [exists []; by rewrite !app_nil_r|]. exfalso. apply Forall_app in Ha as [_ Ha].
  inversion Ha; subst. by apply (Hy c (k ++ z)).
Qed.

Lemma bare_name_chars (p : codes) : p ∈ [str "www."; str "ftp."] -> Forall (fun c => ~ url_stop c) p.
Proof.
  rewrite !elem_of_cons, elem_of_nil. intros [-> |[-> |[]]]; apply (forallb_Forall _ _ url_char_spec); by vm_compute.
Qed.
Lemma bare_intro p c z w y : p ∈ [str "www."; str "ftp."] -> ~ url_stop c -> c <> 46%N -> Forall (fun c => ~ url_stop c) w ->
  (forall c rest, y = c :: rest -> url_stop c) -> w ++ y = p ++ c :: z -> bare_url w.
Proof.
  intros Hp Hc Hd Hw Hy E. destruct (run_covers (fun c => ~ url_stop c) (p ++ [c]) z w y) as (rest & ->).
  - apply Forall_app. split; [by apply bare_name_chars|by repeat constructor].
  - intros c' t -> H. by apply H, (Hy c' t).
  - by rewrite E, <- app_assoc.
  - exists p, c, rest. rewrite <- app_assoc. split_and!; try done. by rewrite <- app_assoc in Hw.
Qed.

Lemma is_url_not_bare w proto guts : is_url w proto guts -> ~ bare_url w.
Proof.
  intros (-> & Hp & _) (p & c & rest & E & H & _). unfold protocols in Hp. rewrite !elem_of_cons, elem_of_nil in Hp.
  rewrite !elem_of_cons, elem_of_nil in H. destruct Hp as [-> |[-> |[-> |[]]]], H as [-> |[-> |[]]]; done.
Qed.
Lemma bare_head w s : bare_url w -> head_word (w ++ s) = true.
Proof.
  intros (p & c & rest & -> & H & _). rewrite !elem_of_cons, elem_of_nil in H. by destruct H as [-> |[-> |[]]].
Qed.
Lemma url_head w proto guts s : is_url w proto guts -> head_word (w ++ s) = true.
Proof.
  intros (-> & Hp & _). unfold protocols in Hp. rewrite !elem_of_cons, elem_of_nil in Hp. by destruct Hp as [-> |[-> |[-> |[]]]].
Qed.

Lemma elem_of_alt a b c dg : dg ∈ rmatch (RAlt a b) c <-> dg ∈ rmatch a c \/ dg ∈ rmatch b c.
Proof. apply elem_of_app. Qed.
Lemma fancy_re_first x w y g : rmatch1 url_fancy_re (at_ x (w ++ y)) = Some (at_ (x ++ w) y, g) ->
  fancy_here x w y /\ ((exists proto guts, is_url w proto guts /\ group 1 g = Some proto /\ the_group 2 g = guts) \/
                       (bare_url w /\ group 1 g = None)).
Proof.
  unfold url_fancy_re. intros H. apply rmatch1_seq in H as (d & g0 & gr & H0 & H & ->).
  pose proof (groupless_caps RWordb eq_refl _ _ _ H0) as ->.
  destruct (proj1 (results_matches _ x _) _ _ H0) as (u0 & y0 & Es & -> & M0).
  assert (u0 = []) as -> by by destruct M0. simpl in Es. subst y0. rewrite app_nil_r in H. rewrite app_nil_r.
  apply rmatch1_seq in H as (d & g1 & g2 & H1 & H & ->).
  apply rmatch1_group in H as (g5 & H & ->). pose proof (rmatch1_in _ _ _ _ H) as H'.
  apply (groupless_caps (rplus (RChr url_char)) eq_refl) in H' as ->.
  pose proof (plus_chars_maximal _ _ _ _ H) as HM.
  assert (forall c rest, y = c :: rest -> url_stop c) as HY.
  { intros c rest Hy. apply url_char_false. by apply (HM c rest). }
  rewrite !elem_of_alt in H1.
  assert (forall name, (d, g1) ∈ rmatch (bare_ahead name) (at_ x (w ++ y)) -> name ∈ [str "www."; str "ftp."] ->
    fancy_here x w y /\ ((exists proto guts, is_url w proto guts /\
      group 1 ([(2, between d (at_ (x ++ w) y))] ++ g1) = Some proto /\ the_group 2 ([(2, between d (at_ (x ++ w) y))] ++ g1) = guts) \/
      bare_url w /\ group 1 ([(2, between d (at_ (x ++ w) y))] ++ g1) = None)) as HB.
  { intros name HN Hname. assert (groupless (bare_ahead name) = true) as HG.
    { rewrite !elem_of_cons, elem_of_nil in Hname. by destruct Hname as [-> |[-> |[]]]. }
    pose proof (groupless_caps _ HG _ _ _ HN) as ->.
    destruct (proj1 (results_matches _ x _) _ _ HN) as (u & y1 & Es & -> & M1).
    apply bare_ahead_spec in M1 as (-> & c & z & -> & Hc & Hd). simpl in Es. rewrite app_nil_r in H.
    destruct (rmatch1_some _ _ _ _ _ H) as (u3 & y3 & E3 & E & M3). apply at_inj in E as [E <-].
    apply app_inv_head in E as <-. apply matches_plus_chars in M3 as [M3 M4].
    apply (forallb_Forall _ _ url_char_spec) in M4.
    assert (bare_url w) as HW by by eapply bare_intro. split; [|right; done].
    split_and!; [by right| |done]. apply (wordb_before x (w ++ y)); [by apply bare_head|done]. }
  destruct H1 as [H1|[H1|H1]]; [|apply (HB _ H1); rewrite !elem_of_cons; tauto|apply (HB _ H1); rewrite !elem_of_cons; tauto].
  clear HB. apply elem_of_seq in H1 as (d1 & g3 & g4 & H3 & H4 & ->).
  apply elem_of_group in H3 as (g3' & -> & H3).
  destruct (proj1 (results_matches _ x _) _ _ H3) as (u & y1 & Es & -> & M1). apply proto_spec in M1.
  apply (groupless_caps (RAlt (RSeq (rlit (str "http")) (ropt (ch 115))) (rlit (str "ftp"))) eq_refl) in H3 as ->.
  destruct (proj1 (results_matches _ _ _) _ _ H4) as (u2 & y2 & Es2 & -> & M2). apply matches_lit in M2 as ->. subst y1.
  apply (groupless_caps (rlit (str "://")) eq_refl) in H4 as ->.
  destruct (rmatch1_some _ _ _ _ _ H) as (u3 & y3 & -> & E & M3). apply at_inj in E as [E <-].
  apply matches_plus_chars in M3 as [M3 M4]. apply (forallb_Forall _ _ url_char_spec) in M4.
  assert (w = u ++ str "://" ++ u3) as -> by (rewrite <- !app_assoc in E; by apply app_inv_head in E).
  assert (is_url (u ++ str "://" ++ u3) u u3) as HU by done. split.
  - split_and!; [left; by exists u, u3| |done]. apply (wordb_before x ((u ++ str "://" ++ u3) ++ y)); [by eapply url_head|done].
  - left. exists u, u3. split_and!; [done| |].
    + cbn [app group Nat.eqb]. f_equal. rewrite Es. apply between_at.
    + unfold the_group. cbn [app group Nat.eqb from_option].
      transitivity (between (at_ ((x ++ u) ++ str "://") (u3 ++ y)) (at_ (((x ++ u) ++ str "://") ++ u3) y)); [by rewrite E|].
      apply between_at.
Qed.

Lemma fancy_functional : functional fancy_here.
Proof.
  intros x w y w' y' E (H & _ & Hy) (H' & _ & Hy').
  assert (forall (w y w' y' proto guts : codes), w ++ y = w' ++ y' -> is_url w proto guts -> bare_url w' -> False) as HX.
  { clear. intros w y w' y' proto guts E (-> & Hp & _) (p & c & rest & -> & H & _). unfold protocols in Hp.
    rewrite !elem_of_cons, elem_of_nil in Hp. rewrite !elem_of_cons, elem_of_nil in H.
    destruct Hp as [-> |[-> |[-> |[]]]], H as [-> |[-> |[]]]; done. }
  destruct H as [(p & g & HU)|HB], H' as [(p' & g' & HU')|HB'].
  - apply (url_functional x w y w' y' E); split; try done; [by exists p, g|by exists p', g'].
  - exfalso. by eapply (HX w y w' y').
  - exfalso. by eapply (HX w' y' w y).
  - destruct HB as (p & c & rest & -> & _ & _ & HF), HB' as (p' & c' & rest' & -> & _ & _ & HF').
    apply (maximal_run (fun c => ~ url_stop c) _ _ y y' HF HF'); [| |done].
    + intros d t -> Hd. by apply Hd, (Hy d t).
    + intros d t -> Hd. by apply Hd, (Hy' d t).
Qed.

Lemma fancy_matches x w y : fancy_here x w y -> matches url_fancy_re x w y.
Proof.
  intros (H & HX & HY). exists [], w. split; [done|]. rewrite app_nil_r. split.
  - apply wordb_before; [|done]. destruct H as [(p & g & H)|H]; [by eapply url_head|by apply bare_head].
  - destruct H as [(p & g & -> & Hp & Hg & HF)|(p & c & rest & -> & Hp & Hd & HF)].
    + exists (p ++ str "://"), g. split; [by rewrite <- app_assoc|]. split.
      * left. exists p, (str "://"). split_and!; [done|by apply proto_spec|by apply matches_lit].
      * cbn [matches]. apply matches_plus_chars. split; [done|]. by apply (forallb_Forall _ _ url_char_spec).
    + exists [], (p ++ c :: rest). split; [done|]. split.
      * right. assert (matches (bare_ahead p) x [] ((p ++ c :: rest) ++ y)) as HM.
        { apply bare_ahead_spec. split; [done|]. exists c, (rest ++ y). rewrite <- app_assoc. split_and!; try done.
          apply Forall_app in HF as [_ HF]. by inversion HF. }
        rewrite !elem_of_cons, elem_of_nil in Hp. destruct Hp as [-> |[-> |[]]]; [by right|by left].
      * cbn [matches]. apply matches_plus_chars. split; [by destruct p|]. by apply (forallb_Forall _ _ url_char_spec).
Qed.
Lemma fancy_first x w y : first url_fancy_re x w y <-> fancy_here x w y.
Proof.
  split.
  - intros [g H]. by apply fancy_re_first in H as [H _].
  - intros HU. destruct (rmatch1 url_fancy_re (at_ x (w ++ y))) as [[d g]|] eqn:E.
    + destruct (rmatch1_some _ _ _ _ _ E) as (w' & y' & Es & -> & M1). rewrite Es in E.
      pose proof (fancy_re_first _ _ _ _ E) as [HU' _].
      assert (w = w') as <- by by apply (fancy_functional x w y w' y'). apply app_inv_head in Es as <-. by exists g.
    + exfalso. apply (proj1 (rmatch1_none _ _ _) E w y eq_refl). by apply fancy_matches.
Qed.

(** ** A stripper whose tokenize method may raise *)
Section strip.
  Context (st : stripper) (T : codes -> list pyword -> Prop) (good : codes -> Prop).
  Hypothesis nonempty : forall x w y, first (find_start st) x w y -> w <> [].
  Hypothesis tok : forall x w y g, rmatch1 (find_start st) (at_ x (w ++ y)) = Some (at_ (x ++ w) y, g) ->
    (exists ts, tokenize_start st g = Ok ts /\ T w ts /\ good w) \/ (tokenize_start st g = Err TypeError /\ ~ good w).

  Lemma analyze_from_cases : forall n x s, (length s < n)%nat ->
    exists kept ws, stripped (first (find_start st)) (first (find_end st)) x s kept ws /\
      ((exists tss, analyze_from n st (at_ x s) = Ok (kept, mjoin tss) /\ Forall2 T ws tss /\ Forall good ws) \/
       (analyze_from n st (at_ x s) = Err TypeError /\ ~ Forall good ws)).
  Proof.
    induction n as [|n IH]; intros x s Hn; [lia|]. cbn [analyze_from].
    pose proof (rsearch_first (find_start st) x s) as HS.
    destruct (rsearch (find_start st) (at_ x s)) as [[[c d] g]|].
    2:{ exists s, []. split; [by constructor|]. left. exists []. split_and!; [done|constructor|constructor]. }
    destruct HS as (k & w & y & HL & Es & -> & -> & HM). rewrite app_assoc in HM.
    specialize (tok _ _ _ _ HM). rewrite <- app_assoc in HM.
    pose proof (rsearch_first (find_end st) (x ++ k ++ w) y) as HE.
    destruct (rsearch (find_end st) (at_ (x ++ k ++ w) y)) as [[[c' d'] g']|].
    2:{ exists s, [w]. split; [by econstructor|]. destruct tok as [(ts & -> & HT & HG)|[-> HG]]; cbn [rbind].
        - left. exists [ts]. split_and!; [|by repeat constructor|by repeat constructor].
          rewrite Es at 1. rewrite between_at. simpl. rewrite app_nil_r. by rewrite <- Es.
        - right. split; [done|]. intros HF. by inversion HF. }
    destruct HE as (k' & e & z & HL' & Ey & -> & -> & HM').
    assert (Hw : (0 < length w)%nat).
    { assert (w <> []) as Hw by (apply (nonempty (x ++ k) w y); exists g; by rewrite <- app_assoc). destruct w; [done|simpl; lia]. }
    destruct (IH ((x ++ k ++ w) ++ k' ++ e) z) as (kept & ws & HR & HC).
    { rewrite Es, Ey, !app_length in Hn. lia. }
    exists (k ++ kept), (w :: ws). split; [rewrite <- !app_assoc in HR; by eapply strip_section|].
    destruct tok as [(ts & -> & HT & HG)|[-> HG]]; cbn [rbind].
    - destruct HC as [(tss & -> & HF & HF')|[-> HF']]; cbn [rbind].
      + left. exists (ts :: tss). split_and!; [|by constructor|by constructor]. rewrite Es at 1. by rewrite between_at.
      + right. split; [done|]. intros HF. by inversion HF.
    - right. split; [done|]. intros HF. by inversion HF.
  Qed.
  Lemma analyze_cases text : exists kept ws, stripped (first (find_start st)) (first (find_end st)) [] text kept ws /\
      ((exists tss, analyze st text = Ok (kept, mjoin tss) /\ Forall2 T ws tss /\ Forall good ws) \/
       (analyze st text = Err TypeError /\ ~ Forall good ws)).
  Proof. unfold analyze. apply (analyze_from_cases _ []). lia. Qed.
End strip.

Lemma url_begin_functional o : functional (url_begin o).
Proof. unfold url_begin. destruct (fancy_urls o); [apply fancy_functional|apply url_functional]. Qed.
Lemma url_begin_first o x w y : first (find_start (URLStripper_with o)) x w y <-> url_begin o x w y.
Proof. unfold url_begin, URLStripper_with. cbn [find_start]. destruct (fancy_urls o); [apply fancy_first|apply url_first]. Qed.
Lemma the_group_some n g w : the_group n g = w -> w <> [] -> group n g = Some w.
Proof. unfold the_group. destruct (group n g) as [v|]; simpl; congruence. Qed.

Lemma url_with_strip o text : exists kept ws, stripped (url_begin o) at_once [] text kept ws /\
  ((exists tss, analyze (URLStripper_with o) text = Ok (kept, mjoin tss) /\ Forall2 url_token_list ws tss /\ Forall (url_fine o) ws) \/
   (analyze (URLStripper_with o) text = Err TypeError /\ ~ Forall (url_fine o) ws)).
Proof.
  destruct (analyze_cases (URLStripper_with o) url_token_list (url_fine o)) with (text := text) as (kept & ws & HR & HC).
  - intros x w y H. apply url_begin_first in H. unfold url_begin in H.
    assert (forall proto guts, is_url w proto guts -> w <> []) as HU.
    { intros p g (-> & Hp & _). unfold protocols in Hp. rewrite !elem_of_cons, elem_of_nil in Hp. by destruct Hp as [-> |[-> |[-> |[]]]]. }
    destruct (fancy_urls o).
    + destruct H as ([(p & g & H)|(p & c & r & -> & _)] & _); [by eapply HU|by destruct p].
    + destruct H as [(p & g & H) _]. by eapply HU.
  - intros x w y g H. unfold URLStripper_with in *. cbn [find_start tokenize_start] in *.
    assert ((exists proto guts, is_url w proto guts /\ group 1 g = Some proto /\ the_group 2 g = guts) \/ (bare_url w /\ group 1 g = None))
      as [(p & gu & HU & E1 & E2)|[HB E1]].
    { destruct (fancy_urls o); [by apply fancy_re_first in H as [_ H]|]. destruct (url_re_first _ _ _ _ H) as (p & gu & HU & _ & E1 & E2).
      left. exists p, gu. split_and!; [done| |done]. apply the_group_some; [done|]. destruct HU as (_ & Hp & _). intros ->.
      unfold protocols in Hp. rewrite !elem_of_cons, elem_of_nil in Hp. by destruct Hp as [? |[? |[? |[]]]]. }
    + rewrite E1, E2. unfold url_fine. destruct (pick_apart o).
      * right. split; [done|]. by intros [? _].
      * left. eexists. split; [done|]. split; [by apply url_tokens_spec|]. split; [done|by eapply is_url_not_bare].
    + rewrite E1. right. split; [done|]. by intros [_ ?].
  - exists kept, ws. split; [|done]. eapply stripped_iff; [apply url_begin_first|apply at_once_first|done].
Qed.

(** ** Runs of short words *)
Fixpoint followed (count : nat) (ws : list codes) : list nat :=
  match ws with
  | [] => []
  | w :: ws => if decide (length w < 3) then followed (S count) ws
               else match count with O => [] | _ => [count] end ++ followed 0 ws
  end.
Lemma followed_run_long ss w ws n : Forall (fun w : codes => length w < 3) ss -> 3 <= length w ->
  followed_run (ss ++ w :: ws) n <-> (n = length ss /\ 0 < n) \/ followed_run ws n.
Proof.
  intros Hss Hw. split.
  - intros (Hn & a & s & c & b & E & Hl & Hs & Hc & Ha). destruct Ha as [-> |(a' & l & -> & Hll)].
    + simpl in E. assert (s = ss) as ->; [|left; lia].
      clear -E Hs Hss Hc Hw. revert ss Hss E. induction Hs as [|v s Hv _ IH]; intros ss Hss E; destruct Hss as [|u ss Hu Hss]; simpl in E.
      * done.
      * injection E as <- E. lia.
      * injection E as <- E. lia.
      * injection E as <- E. f_equal. by apply IH.
    + right. split; [done|]. rewrite <- app_assoc in E. simpl in E.
      assert (exists a0, ws = a0 ++ s ++ c :: b /\ (a0 = [] \/ exists a' l, a0 = a' ++ [l] /\ 3 <= length l)) as (a0 & -> & H0);
        [|by exists a0, s, c, b].
      apply app_eq_inv in E as [(k & -> & E)|(k & -> & E)].
      * destruct k as [|u k]; simpl in E; injection E as -> E.
        -- exists []. split; [done|by left].
        -- exfalso. apply Forall_app in Hss as [_ Hss]. inversion Hss; subst. lia.
      * destruct k as [|u k]; simpl in E; injection E as -> E.
        -- exists []. split; [done|by left].
        -- exists (k ++ [l]). rewrite <- app_assoc. split; [done|]. right. by exists k, l.
  - intros [[-> Hn]|(Hn & a & s & c & b & -> & Hl & Hs & Hc & Ha)].
    + split; [done|]. exists [], ss, w, ws. split_and!; try done. by left.
    + split; [done|]. exists (ss ++ w :: a), s, c, b. split_and!; try done; [by rewrite <- app_assoc|]. right.
      destruct Ha as [-> |(a' & l & -> & Hll)]; [by exists ss, w|]. exists (ss ++ w :: a'), l. by rewrite <- app_assoc.
Qed.
Lemma followed_spec ws : forall ss n, Forall (fun w : codes => length w < 3) ss ->
  n ∈ followed (length ss) ws <-> followed_run (ss ++ ws) n.
Proof.
  induction ws as [|w ws IH]; intros ss n Hss; cbn [followed].
  - rewrite elem_of_nil, app_nil_r. split; [done|]. intros (_ & a & s & c & b & -> & _ & _ & Hc & _).
    rewrite !Forall_app, Forall_cons in Hss. lia.
  - destruct (decide (length w < 3)) as [Hw|Hw].
    + replace (S (length ss)) with (length (ss ++ [w])) by (rewrite app_length; simpl; lia).
      rewrite IH; [by rewrite <- app_assoc|]. apply Forall_app. split; [done|by apply Forall_singleton].
    + rewrite followed_run_long by (done || lia). rewrite elem_of_app. change 0 with (length (@nil codes)).
      rewrite (IH []) by constructor. simpl. f_equiv. destruct (length ss); [rewrite elem_of_nil; lia|].
      rewrite elem_of_list_singleton. lia.
Qed.

Lemma max_list_in (l : list nat) : l <> [] -> max_list l ∈ l.
Proof.
  induction l as [|n l IH]; [done|]. intros _. simpl. destruct (Nat.max_spec n (max_list l)) as [[H ->]|[H ->]]; [|by left].
  right. apply IH. intros ->. simpl in H. lia.
Qed.

Definition short_end (short : bool) (rs : list nat) : gen :=
  if short then match rs with [] => gok [] | _ => gok [WStr (str "short:" ++ digits (int_log2 (max_list rs)))] end else gok [].
Lemma text_loop_eq short ws : forall rs count, text_loop short rs count ws =
  gapp (gfor (fun w => tokenize_word (WBytes w)) ws) (short_end short (reverse (followed count ws) ++ rs)).
Proof.
  induction ws as [|w ws IH]; intros rs count; cbn [text_loop gfor followed].
  - change ([], None) with (gok []). rewrite gapp_ok. by unfold short_end; destruct short, rs.
  - assert ((if length w <=? SKIP_MAX_WORD_SIZE then gok [WBytes w] else tokenize_word (WBytes w)) = tokenize_word (WBytes w) \/ length w < 3) as HW.
    { unfold tokenize_word. cbn [wcodes]. destruct (Nat.ltb_spec (length w) 3); [by right|left].
      by destruct (Nat.leb_spec (length w) SKIP_MAX_WORD_SIZE). }
    assert (length w < 3 -> tokenize_word (WBytes w) = gok []) as HS.
    { intros H. unfold tokenize_word. cbn [wcodes]. by destruct (Nat.ltb_spec (length w) 3); [|lia]. }
    destruct (Nat.ltb_spec (length w) 3) as [H|H].
    + rewrite decide_True by done. rewrite IH, HS by done. change (gfor _ ws) with (gfor (fun w => tokenize_word (WBytes w)) ws).
      destruct (gfor _ ws) as [ts [e|]]; done.
    + rewrite decide_False by lia. destruct HW as [-> |]; [|lia]. rewrite IH.
      assert (reverse (match count with O => [] | _ => [count] end ++ followed 0 ws) ++ rs =
        reverse (followed 0 ws) ++ match count with O => rs | _ => count :: rs end) as ->.
      { rewrite reverse_app, <- app_assoc. by destruct count. }
      generalize (short_end short (reverse (followed 0 ws) ++ match count with O => rs | _ => count :: rs end)). intros [se see].
      destruct (tokenize_word (WBytes w)) as [t1 [e1|]]; [done|]. destruct (gfor _ ws) as [t2 [e2|]]; simpl; [done|]. by rewrite app_assoc.
Qed.

Lemma short_end_spec short ws : exists sts, short_end short (reverse (followed 0 ws) ++ []) = (sts, None) /\ short_list short ws sts.
Proof.
  assert (forall n, n ∈ reverse (followed 0 ws) <-> followed_run ws n) as HF.
  { intros n. rewrite elem_of_reverse. by apply (followed_spec ws []). }
  rewrite app_nil_r. generalize dependent (reverse (followed 0 ws)). intros l HF. unfold short_end, short_list.
  destruct short; [|exists []; split; [done|by left]]. destruct l as [|n0 l].
  - exists []. split; [done|]. right; left. split_and!; [done| |done]. intros n Hn. apply HF in Hn. by apply elem_of_nil in Hn.
  - eexists. split; [done|]. right; right. split; [done|]. set (l' := n0 :: l) in *.
    assert (max_list l' ∈ l') as HM by by apply max_list_in. exists (max_list l'), (int_log2 (max_list l')). split_and!.
    + by apply HF.
    + intros n Hn. apply HF in Hn. by apply max_list_elem_of_le.
    + apply HF in HM as [HM _]. unfold int_log2. apply N.log2_spec. lia.
    + apply HF in HM as [HM _]. unfold int_log2. rewrite N.add_1_r. apply N.log2_spec. lia.
    + done.
Qed.
Lemma log2_pow m k k' : (2 ^ k <= m < 2 ^ (k + 1))%N -> (2 ^ k' <= m < 2 ^ (k' + 1))%N -> k = k'.
Proof. rewrite !N.add_1_r. intros H H'. by rewrite <- (N.log2_unique m k), <- (N.log2_unique m k') by (done || lia). Qed.
Lemma short_list_det short ws ts ts' : short_list short ws ts -> short_list short ws ts' -> ts = ts'.
Proof.
  intros [[H ->]|[(H & HN & ->)|(H & m & k & Hm & HM & Hk & ->)]] [[H' ->]|[(H' & HN' & ->)|(H' & m' & k' & Hm' & HM' & Hk' & ->)]];
    try congruence; try (exfalso; by eapply HN); try (exfalso; by eapply HN').
  assert (m = m') as <- by (apply HM in Hm'; apply HM' in Hm; lia). by rewrite (log2_pow _ _ _ Hk Hk').
Qed.

Lemma text_with_good short text ws : words text ws -> Forall (fun w => ~ bad_word w) ws ->
  exists tss sts, tokenize_text_with short text = (mjoin tss ++ sts, None) /\ Forall2 word_tokens ws tss /\ short_list short ws sts.
Proof.
  intros HW HF. unfold tokenize_text_with. rewrite text_loop_eq.
  destruct (tokenize_text_good text ws HW HF) as (tss & E & HT). rewrite tokenize_text_eq in E. rewrite E.
  rewrite <- (words_unique _ _ HW). destruct (short_end_spec short ws) as (sts & -> & HS). by exists tss, sts.
Qed.
Lemma text_with_bad short text ws : words text ws -> ~ Forall (fun w => ~ bad_word w) ws ->
  (tokenize_text_with short text).2 = Some TypeError.
Proof.
  intros HW HF. unfold tokenize_text_with. rewrite text_loop_eq. pose proof (tokenize_text_bad text ws HW HF) as E.
  rewrite tokenize_text_eq in E. destruct (gfor _ _) as [ts e]. simpl in E. by subst e.
Qed.

(** ** Text parts *)
Lemma left_over_with_det o t t' urls t'' urls' : left_over_with o t t' urls -> left_over_with o t t'' urls' ->
  t' = t'' /\ urls = urls'.
Proof.
  intros (t1 & t2 & t3 & s2 & s3 & s4 & H1 & H2 & H3 & H4) (t1' & t2' & t3' & s2' & s3' & s4' & H1' & H2' & H3' & H4').
  destruct (stripped_det _ _ (url_begin_functional o) at_once_functional _ _ _ _ _ _ H1 H1') as [<- <-].
  destruct (stripped_det _ _ style_start_functional style_end_functional _ _ _ _ _ _ H2 H2') as [<- _].
  destruct (stripped_det _ _ comment_start_functional comment_end_functional _ _ _ _ _ _ H3 H3') as [<- _].
  by destruct (stripped_det _ _ noframes_start_functional noframes_end_functional _ _ _ _ _ _ H4 H4') as [<- _].
Qed.

Definition crackers_with (o : bopts) : list stripper :=
  [UUencodeStripper; URLStripper_with o; StyleStripper; CommentStripper; NoframesStripper].
Lemma crack_with_cases o t k : ~ occurs uu_begin t -> exists t' urls, left_over_with o t t' urls /\
  ((exists tss : list (list pyword), Forall2 url_token_list urls tss /\ Forall (url_fine o) urls /\
      crack (crackers_with o) t k = gapp (gok (mjoin tss)) (k t')) \/
   (~ Forall (url_fine o) urls /\ (crack (crackers_with o) t k).2 = Some TypeError)).
Proof.
  intros HU. destruct (url_with_strip o t) as (t1 & urls & H1 & HC). destruct (style_strip t1) as (t2 & s2 & E2 & H2).
  destruct (comment_strip t2) as (t3 & s3 & E3 & H3). destruct (noframes_strip t3) as (t' & s4 & E4 & H4).
  exists t', urls. split; [by exists t1, t2, t3, s2, s3, s4|].
  unfold crackers_with. cbn [crack]. rewrite (proj1 (uu_strip t) HU).
  destruct HC as [(tss & E1 & HF & HG)|[E1 HG]]; rewrite E1.
  - left. exists tss. split_and!; [done|done|]. rewrite E2, E3, E4. by destruct (k t').
  - right. done.
Qed.

Lemma payload_with_cases o b :
  (exists ts, tokenize_payload_with o b = (ts, None) /\ body_tokens_with o b ts /\ tokenizable_with o b) \/
  ((tokenize_payload_with o b).2 = Some TypeError /\ ~ tokenizable_with o b).
Proof.
  unfold tokenize_payload_with.
  destruct (sub_with_text_cases _ _ numeric_entity_spec b) as [[-> HN]|[-> HN]].
  2:{ right. split; [done|]. intros (_ & t & t' & urls & ws & _ & _ & _ & H & _). done. }
  cbv zeta. set (t := blower b). fold (crackers_with o).
  destruct (replace_nonascii o) eqn:ER.
  { right. split; [done|]. intros [H _]. congruence. }
  destruct (occurs_cases _ _ uu_begin_spec t) as [HU|HU].
  { right. split.
    - unfold crackers_with. cbn [crack]. by rewrite (proj2 (uu_strip t) HU).
    - intros (_ & t0 & t' & urls & ws & HL & _ & _ & _ & H & _). apply lower_unique in HL as ->. done. }
  set (k := fun text => match sub_with_text breaking_entity_re text with
    | Err e => gerr e
    | Ok text => match sub_with_text html_re text with Err e => gerr e | Ok text => tokenize_text_with (short_runs o) text end end).
  destruct (crack_with_cases o t k HU) as (t' & urls & HLO & HC).
  assert (HT : forall t0 t0' urls0, Forall2 lower_of b t0 -> left_over_with o t0 t0' urls0 -> t0' = t' /\ urls0 = urls).
  { intros t0 t0' urls0 H0 H1. apply lower_unique in H0 as ->. by apply (left_over_with_det o t). }
  destruct HC as [(tss & HUT & HG & EC)|[HG EC]].
  2:{ right. split; [by destruct (crack _ _ _)|]. intros (_ & t0 & t0' & urls0 & ws & H1 & H2 & _ & _ & _ & H & _).
      destruct (HT _ _ _ H1 H2) as [-> ->]. done. }
  rewrite EC. unfold k. clear EC k.
  destruct (sub_with_text_cases _ _ breaking_entity_spec t') as [[-> HB]|[-> HB]].
  2:{ right. split; [done|]. intros (_ & t0 & t0' & urls0 & ws & H1 & H2 & _ & _ & _ & _ & H & _).
      destruct (HT _ _ _ H1 H2) as [-> _]. done. }
  destruct (sub_with_text_cases _ _ html_tag_spec t') as [[-> HH]|[-> HH]].
  2:{ right. split; [done|]. intros (_ & t0 & t0' & urls0 & ws & H1 & H2 & _ & _ & _ & _ & _ & H & _).
      destruct (HT _ _ _ H1 H2) as [-> _]. done. }
  pose proof (words_of_spec t') as HW.
  destruct (decide (Forall (fun w => ~ bad_word w) (words_of t'))) as [HF|HF].
  - left. destruct (text_with_good (short_runs o) _ _ HW HF) as (wss & sts & -> & HF' & HS). eexists. split; [done|]. split.
    + exists t, t', urls, (words_of t'), (findall virus_re t), tss, wss, sts. split_and!; try done.
      * apply blower_spec.
      * apply findall_found; [apply virus_spec|apply virus_nonempty].
    + split; [done|]. exists t, t', urls, (words_of t'). split_and!; try done. apply blower_spec.
  - right. split.
    + pose proof (text_with_bad (short_runs o) _ _ HW HF) as E. destruct (tokenize_text_with _ t') as [ts e]. simpl in *. done.
    + intros (_ & t0 & t0' & urls0 & ws & H1 & H2 & H3 & _ & _ & _ & _ & _ & H).
      destruct (HT _ _ _ H1 H2) as [-> _]. apply words_unique in H3 as ->. done.
Qed.
Lemma payload_with_outcome o b :
  (tokenizable_with o b -> exists ts, tokenize_payload_with o b = (ts, None) /\ body_tokens_with o b ts) /\
  (~ tokenizable_with o b -> (tokenize_payload_with o b).2 = Some TypeError).
Proof. destruct (payload_with_cases o b) as [(ts & H1 & H2 & H3)|[H1 H2]]; split; try done. by exists ts. Qed.

Lemma body_tokens_with_det o b ts ts' : body_tokens_with o b ts -> body_tokens_with o b ts' -> ts = ts'.
Proof.
  intros (t & t' & urls & ws & clues & tss & wss & sts & H1 & H2 & H3 & H4 & H5 & H6 & H7 & ->)
    (s & s' & urls' & ws' & clues' & tss' & wss' & sts' & K1 & K2 & K3 & K4 & K5 & K6 & K7 & ->).
  apply lower_unique in H1 as ->. apply lower_unique in K1 as ->.
  destruct (left_over_with_det _ _ _ _ _ _ H2 K2) as [<- <-].
  apply words_unique in H3 as ->. apply words_unique in K3 as ->.
  rewrite (found_det _ virus_functional _ _ _ _ H4 K4), (short_list_det _ _ _ _ H7 K7).
  rewrite (Forall2_det _ _ _ _ url_token_list_det H5 K5), (Forall2_det _ _ _ _ word_tokens_det H6 K6). done.
Qed.
Lemma part_tokens_with_det o p ts ts' : part_tokens_with o p ts -> part_tokens_with o p ts' -> ts = ts'.
Proof. destruct p; [apply body_tokens_with_det|apply part_tokens_det|apply part_tokens_det]. Qed.

Lemma part_with_outcome o a2b p :
  (exists ts, tokenize_part_with o a2b p = (ts, None) /\ part_tokens_with o p ts /\ ~ part_raises_with o p) \/
  ((tokenize_part_with o a2b p).2 = Some TypeError /\ part_raises_with o p).
Proof.
  destruct p as [b| |raw]; cbn [part_raises_with part_tokens_with tokenize_part_with].
  - destruct (payload_with_cases o b) as [(ts & H1 & H2 & H3)|[H1 H2]]; [left; exists ts; tauto|by right].
  - exact (part_outcome a2b PNone).
  - exact (part_outcome a2b (PRaises raw)).
Qed.
Lemma texts_with_outcome o a2b texts :
  (Forall (fun p => ~ part_raises_with o p) texts ->
   exists tss, gfor (tokenize_part_with o a2b) texts = (mjoin tss, None) /\ Forall2 (part_tokens_with o) texts tss) /\
  (Exists (part_raises_with o) texts -> (gfor (tokenize_part_with o a2b) texts).2 = Some TypeError).
Proof.
  split.
  - intros HN. apply gfor_ok. eapply Forall_impl; [exact HN|]. intros p Hp. simpl in Hp.
    destruct (part_with_outcome o a2b p) as [(ts & H1 & H2 & _)|[_ H]]; [by exists ts|done].
  - intros HE. destruct (gfor_err (tokenize_part_with o a2b) (eq TypeError) texts) as (e & E & <-); [| |done].
    + intros p e _ H. destruct (part_with_outcome o a2b p) as [(ts & H1 & _)|[H' _]]; [by rewrite H1 in H|]. congruence.
    + eapply Exists_impl; [exact HE|]. intros p Hp.
      destruct (part_with_outcome o a2b p) as [(ts & _ & _ & H)|[H _]]; [done|]. by rewrite H.
Qed.
Lemma texts_with_iff o a2b texts ts : gfor (tokenize_part_with o a2b) texts = (ts, None) <->
  Forall (fun p => ~ part_raises_with o p) texts /\ exists tss, Forall2 (part_tokens_with o) texts tss /\ ts = mjoin tss.
Proof.
  destruct (texts_with_outcome o a2b texts) as [H1 H2]. split.
  - intros E. assert (Forall (fun p => ~ part_raises_with o p) texts) as HF.
    { apply Forall_forall. intros p Hp Hr. assert (Exists (part_raises_with o) texts) as HE by (apply Exists_exists; by exists p).
      apply H2 in HE. by rewrite E in HE. }
    split; [done|]. destruct (H1 HF) as (tss & E' & HT). exists tss. split; [done|]. congruence.
  - intros (HF & tss & HT & ->). destruct (H1 HF) as (tss' & -> & HT').
    by rewrite (Forall2_det _ _ _ _ (part_tokens_with_det o) HT HT').
Qed.

(** ** Octet streams and images *)
Lemma take_prefix (n : nat) (b a z : codes) : b = a ++ z -> length a = n \/ (length a < n /\ z = []) -> take n b = a.
Proof.
  intros -> [<-|[H ->]]; [apply take_app|]. rewrite app_nil_r. apply take_ge. lia.
Qed.
Lemma take_cut (n : nat) (b : codes) : exists z, b = take n b ++ z /\ (length (take n b) = n \/ (length (take n b) < n /\ z = [])).
Proof.
  exists (drop n b). split; [by rewrite take_drop|]. rewrite take_length.
  destruct (decide (n <= length b)); [left; lia|right]. split; [lia|]. apply drop_ge. lia.
Qed.
Lemma octet_list_iff p ts : octet_list p ts <-> ts = octet_tokens p.
Proof.
  destruct p as [b| |[s|]]; cbn [octet_list octet_tokens]; try done.
  - split.
    + intros (a & z & E & H & ->). unfold OCTET_PREFIX_SIZE. by rewrite (take_prefix 5 b a z E H).
    + intros ->. destruct (take_cut 5 b) as (z & E & H). by exists (take 5 b), z.
  - split.
    + intros (a & z & E & H & ->). unfold OCTET_PREFIX_SIZE. by rewrite (take_prefix 5 s a z E H).
    + intros ->. destruct (take_cut 5 s) as (z & E & H). by exists (take 5 s), z.
Qed.
Lemma octets_iff wanted ps ts :
  (if wanted : bool then gfor (fun p => gok (octet_tokens p)) ps else gok []) = (ts, None) <-> octets_list wanted ps ts.
Proof.
  unfold octets_list. destruct wanted.
  - rewrite (gfor_iff _ octet_list).
    + split; [intros H; right; done|intros [[? _]|[_ H]]; done].
    + intros p t _. rewrite octet_list_iff. split; [intros [= <-]; done|intros ->; done].
  - split; [intros [= <-]; by left|intros [[_ ->]|[? _]]; done].
Qed.

Lemma image_fst p : (image_tokens p).1 = image_complaints p.
Proof. by destruct p as [b| |[s|]]. Qed.
Lemma image_snd p : (image_tokens p).2 = length (image_content p).
Proof. by destruct p as [b| |[s|]]. Qed.
Lemma image_total ps : foldl (fun n p => n + (image_tokens p).2) 0 ps = length (mjoin (image_content <$> ps)).
Proof.
  assert (forall n, foldl (fun n p => n + (image_tokens p).2) n ps = n + length (mjoin (image_content <$> ps))) as H; [|apply H].
  induction ps as [|p ps IH]; intros n; [simpl; lia|]. cbn [foldl]. rewrite IH, image_snd, fmap_cons.
  change (mjoin (?a :: ?l)) with (a ++ mjoin l). rewrite app_length. lia.
Qed.
Lemma images_spec ps : images_list true ps (images_tokens ps).
Proof.
  right. split; [done|]. unfold images_tokens. rewrite image_total. eexists. split.
  - f_equal. induction ps as [|p ps IH]; [done|]. cbn [flat_map]. by rewrite IH, image_fst.
  - generalize (mjoin (image_content <$> ps)). intros c. destruct c as [|x c]; [by left|]. right. split; [done|].
    exists (round_log2 (length (x :: c))). split; [|done]. apply round_log2_spec. simpl. lia.
Qed.
Lemma images_det wanted ps ts ts' : images_list wanted ps ts -> images_list wanted ps ts' -> ts = ts'.
Proof.
  intros [[H ->]|(H & s & -> & Hs)] [[H' ->]|(H' & s' & -> & Hs')]; try congruence. f_equal.
  destruct Hs as [[E ->]|(E & k & Hk & ->)], Hs' as [[E' ->]|(E' & k' & Hk' & ->)]; try done.
  by rewrite (nearest_log2_unique _ _ _ Hk Hk').
Qed.
Lemma images_iff wanted ps ts : (if wanted : bool then gok (images_tokens ps) else gok []) = (ts, None) <-> images_list wanted ps ts.
Proof.
  destruct wanted.
  - split; [intros [= <-]; apply images_spec|]. intros H. by rewrite (images_det _ _ _ _ H (images_spec ps)).
  - split; [intros [= <-]; by left|]. intros [[_ ->]|[? _]]; done.
Qed.

(** ** The body *)
Lemma body_with_iff o a2b octets images texts ts : tokenize_body_with o a2b octets images texts = (ts, None) <->
  exists ots its tss, octets_list (check_octets o) octets ots /\ images_list (image_size o) images its /\
    Forall (fun p => ~ part_raises_with o p) texts /\ Forall2 (part_tokens_with o) texts tss /\ ts = ots ++ its ++ mjoin tss.
Proof.
  unfold tokenize_body_with. split.
  - intros H. apply gapp_none in H as (ots & r & H1 & H & ->). apply gapp_none in H as (its & r' & H2 & H3 & ->).
    apply octets_iff in H1. apply images_iff in H2. apply texts_with_iff in H3 as (H3 & tss & H4 & ->). by exists ots, its, tss.
  - intros (ots & its & tss & H1 & H2 & H3 & H4 & ->). apply octets_iff in H1. apply images_iff in H2. rewrite H1, H2.
    assert (gfor (tokenize_part_with o a2b) texts = (mjoin tss, None)) as ->; [|done]. apply texts_with_iff. split; [done|]. by exists tss.
Qed.

(** ** With the options as they are set, the model is the one of TokenModel.v *)
Lemma analyze_from_ext st st' : find_start st = find_start st' -> find_end st = find_end st' ->
  (forall x w y g, rmatch1 (find_start st) (at_ x (w ++ y)) = Some (at_ (x ++ w) y, g) -> tokenize_start st g = tokenize_start st' g) ->
  forall n x s, analyze_from n st (at_ x s) = analyze_from n st' (at_ x s).
Proof.
  intros E1 E2 HT. induction n as [|n IH]; intros x s; [done|]. cbn [analyze_from]. rewrite <- E1, <- E2.
  pose proof (rsearch_first (find_start st) x s) as HS.
  destruct (rsearch (find_start st) (at_ x s)) as [[[c d] g]|]; [|done].
  destruct HS as (k & w & y & HL & Es & -> & -> & HM). rewrite app_assoc in HM. rewrite <- (HT _ _ _ _ HM).
  destruct (tokenize_start st g) as [ts|e]; cbn [rbind]; [|done].
  pose proof (rsearch_first (find_end st) (x ++ k ++ w) y) as HE.
  destruct (rsearch (find_end st) (at_ (x ++ k ++ w) y)) as [[[c' d'] g']|]; [|done].
  destruct HE as (k' & e & z & HL' & Ey & -> & -> & HM'). by rewrite IH.
Qed.
Lemma url_default text : analyze (URLStripper_with default_bopts) text = analyze URLStripper text.
Proof.
  unfold analyze. change (start text) with (at_ [] text). apply analyze_from_ext; [done|done|].
  intros x w y g H. change (find_start _) with url_re in H. destruct (url_re_first _ _ _ _ H) as (p & gu & (_ & Hp & _) & _ & E1 & E2).
  unfold URLStripper_with, URLStripper. cbn [tokenize_start pick_apart default_bopts]. rewrite E1. rewrite (the_group_some 1 g p); [done|done|].
  intros ->. unfold protocols in Hp. rewrite !elem_of_cons, elem_of_nil in Hp. by destruct Hp as [? |[? |[? |[]]]].
Qed.
Lemma text_default text : tokenize_text_with false text = tokenize_text text.
Proof.
  unfold tokenize_text_with. rewrite text_loop_eq, tokenize_text_eq. unfold short_end. by destruct (gfor _ _) as [ts [e|]]; simpl; rewrite ?app_nil_r.
Qed.
Lemma crack_ext sts k k' : (forall t, k t = k' t) -> forall t, crack sts t k = crack sts t k'.
Proof. intros H. induction sts as [|st sts IH]; intros t; [apply H|]. cbn [crack]. destruct (analyze st t) as [[t' ts]|e]; [|done]. by rewrite IH. Qed.
Lemma payload_default b : tokenize_payload_with default_bopts b = tokenize_payload b.
Proof.
  unfold tokenize_payload_with, tokenize_payload. destruct (sub_with_text _ b) as [b'|e]; [|done]. cbv zeta. cbn [replace_nonascii default_bopts].
  f_equal. unfold crackers.
  change (crack [UUencodeStripper; ?u; StyleStripper; CommentStripper; NoframesStripper]) with
    (fun t k => crack [UUencodeStripper; u; StyleStripper; CommentStripper; NoframesStripper] t k).
  cbn [crack]. destruct (analyze UUencodeStripper _) as [[t1 ts1]|e]; [|done]. rewrite url_default. f_equal.
  destruct (analyze URLStripper t1) as [[t2 ts2]|e]; [|done]. f_equal.
  destruct (analyze StyleStripper t2) as [[t3 ts3]|e]; [|done]. f_equal.
  destruct (analyze CommentStripper t3) as [[t4 ts4]|e]; [|done]. f_equal.
  destruct (analyze NoframesStripper t4) as [[t5 ts5]|e]; [|done]. f_equal.
  destruct (sub_with_text breaking_entity_re t5) as [t6|e]; [|done].
  destruct (sub_with_text html_re t6) as [t7|e]; [|done]. apply text_default.
Qed.
Lemma body_default a2b octets images texts : tokenize_body_with default_bopts a2b octets images texts = tokenize_body a2b texts.
Proof.
  unfold tokenize_body_with, tokenize_body. cbn [check_octets image_size default_bopts]. rewrite !gapp_ok. cbn [app fst snd].
  rewrite <- !surjective_pairing. apply gfor_ext. intros [b| |raw]; [apply payload_default|done|done].
Qed.
