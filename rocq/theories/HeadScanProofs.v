(** * Proofs about message ids, Received headers, header counts and the whole call *)
From Coq Require Import String.
From Verif Require Import Py Regex RegexSpec RegexProofs StripModel StripSpec StripProofs CdbModel MessageModel MessageSpec
  NetModel NetSpec NetProofs NetCases TokenModel TokenSpec TokenProofs HeadModel HeadSpec HeadProofs HeadFieldProofs.

Lemma sane_space U c : sane U -> (c < 128)%N -> ~ (blank c \/ 28 <= c <= 31)%N -> u_space U c = false.
Proof. intros (_ & H & _) Hc Hn. specialize (H c Hc). destruct (u_space U c); [|done]. exfalso. apply Hn. by apply H. Qed.
Lemma blank_cases c : blank c <-> (9 <= c <= 13 \/ c = 32)%N.
Proof. unfold blank. rewrite !elem_of_cons, elem_of_nil. lia. Qed.
Lemma space_not U c : sane U -> (33 <= c < 128)%N -> u_space U c = false.
Proof. intros HU Hc. apply sane_space; [done|lia|]. rewrite blank_cases. lia. Qed.

(** ** Message ids *)

Lemma not_eqb_chars k (w : codes) : forallb (fun c => negb (c =? k)%N) w = true <-> k ∉ w.
Proof.
  rewrite (forallb_Forall _ (fun c => c <> k)).
  - rewrite Forall_forall. split; [intros H Hk; by apply (H k)|intros H c Hc ->; done].
  - intros c. destruct (N.eqb_spec c k); simpl; naive_solver.
Qed.

Lemma id_group U s d g : rmatch1 (message_id_re U) (at_ [] s) = Some (d, g) -> id_host U s (the_group 1 g).
Proof.
  intros H. apply rmatch1_in in H. unfold message_id_re in H.
  apply elem_of_seq in H as (e1 & g1 & h1 & H1 & H & ->).
  destruct (proj1 (results_matches _ _ _) _ _ H1) as (sp & y1 & -> & -> & M1).
  apply (groupless_caps (RStar (RChr (u_space U))) eq_refl) in H1 as ->.
  apply elem_of_seq in H as (e2 & g2 & h2 & H2 & H & ->).
  destruct (proj1 (results_matches _ _ _) _ _ H2) as (lt & y2 & -> & -> & M2).
  apply (groupless_caps (ch 60) eq_refl) in H2 as ->.
  apply elem_of_seq in H as (e3 & g3 & h3 & H3 & H & ->).
  destruct (proj1 (results_matches _ _ _) _ _ H3) as (l & y3 & -> & -> & M3).
  apply (groupless_caps (rplus (RChr (fun c => negb (c =? 64)%N))) eq_refl) in H3 as ->.
  apply elem_of_seq in H as (e4 & g4 & h4 & H4 & H & ->).
  destruct (proj1 (results_matches _ _ _) _ _ H4) as (at' & y4 & -> & -> & M4).
  apply (groupless_caps (ch 64) eq_refl) in H4 as ->.
  apply elem_of_seq in H as (e5 & g5 & h5 & H5 & H & ->).
  apply elem_of_group in H5 as (g5' & -> & H5).
  destruct (proj1 (results_matches _ _ _) _ _ H5) as (host & y5 & -> & -> & M5).
  apply (groupless_caps (rplus (RChr (fun c => negb (c =? 62)%N))) eq_refl) in H5 as ->.
  pose proof H as H'. apply (groupless_caps (RSeq (ch 62) (RStar (RChr (u_space U)))) eq_refl) in H' as ->.
  destruct (proj1 (results_matches _ _ _) _ _ H) as (rest & y6 & -> & -> & M6).
  destruct M6 as (gt & sp' & -> & M6 & _). apply matches_ch in M2 as ->. apply matches_ch in M4 as ->. apply matches_ch in M6 as ->.
  apply matches_star_chars in M1. apply matches_plus_chars in M3 as [M3 M3'], M5 as [M5 M5'].
  apply not_eqb_chars in M3', M5'. rewrite between_at. unfold the_group. simpl.
  exists sp, l, (sp' ++ y6). split_and!; [|by apply (forallb_Forall (u_space U) (fun c => u_space U c = true))|done..].
  done.
Qed.

Lemma id_matches U s host : id_host U s host -> exists w y, s = w ++ y /\ matches (message_id_re U) [] w y.
Proof.
  intros (sp & l & rest & -> & H1 & H2 & H3 & H4 & H5).
  exists (sp ++ str "<" ++ l ++ str "@" ++ host ++ str ">"), rest. split; [by rewrite <- !app_assoc|].
  unfold message_id_re. exists sp, (str "<" ++ l ++ str "@" ++ host ++ str ">"). split; [done|]. split.
  { apply matches_star_chars. by apply (forallb_Forall (u_space U) (fun c => u_space U c = true)). }
  exists (str "<"), (l ++ str "@" ++ host ++ str ">"). split; [done|]. split; [by apply matches_ch|].
  exists l, (str "@" ++ host ++ str ">"). split; [done|]. split; [apply matches_plus_chars; split; [done|by apply not_eqb_chars]|].
  exists (str "@"), (host ++ str ">"). split; [done|]. split; [by apply matches_ch|].
  exists host, (str ">"). split; [done|]. split; [apply matches_plus_chars; split; [done|by apply not_eqb_chars]|].
  exists (str ">"), []. split; [done|]. split; [by apply matches_ch|]. by apply matches_star_chars.
Qed.

Lemma cut_first (k : N) (a b x y : codes) : k ∉ a -> k ∉ b -> a ++ k :: x = b ++ k :: y -> a = b /\ x = y.
Proof.
  intros Ha Hb E. destruct (run_split (fun c => c <> k) a b (k :: x) (k :: y)) as [-> E']; [..|by injection E'].
  - apply Forall_forall. by intros c Hc ->.
  - apply Forall_forall. by intros c Hc ->.
  - intros c rest [= <- _] H. done.
  - intros c rest [= <- _] H. done.
  - done.
Qed.

Lemma id_host_det U s host host' : sane U -> id_host U s host -> id_host U s host' -> host = host'.
Proof.
  intros HU (sp & l & rest & -> & H1 & _ & H3 & _ & H5) (sp' & l' & rest' & E & H1' & _ & H3' & _ & H5').
  assert (forall sp : codes, Forall (fun c => u_space U c = true) sp -> 60%N ∉ sp) as HS.
  { intros sp0 HF Hc. rewrite Forall_forall in HF. apply HF in Hc. by rewrite space_not in Hc. }
  apply (cut_first 60) in E as [_ E]; [|by apply HS..]. apply (cut_first 64) in E as [_ E]; [|done..].
  by apply (cut_first 62) in E as [-> _].
Qed.

Lemma message_id_ok U h s host : sane U -> header_or h (str "message-id") (FText []) (FText s) -> id_host U s host ->
  message_id_tokens U h = ([WStr (str "message-id:@" ++ host)], None).
Proof.
  intros HU Hh Hi. apply (hget_default_or _ (str "message-id")) in Hh; [|done]. unfold message_id_tokens. rewrite Hh.
  change (start s) with (at_ [] s). destruct (rmatch1 (message_id_re U) (at_ [] s)) as [[d g]|] eqn:E.
  - apply id_group in E. by rewrite (id_host_det U s host _ HU Hi E).
  - destruct (id_matches U s host Hi) as (w & y & Es & M1). exfalso. exact (proj1 (rmatch1_none _ _ _) E w y Es M1).
Qed.
Lemma message_id_invalid U h s : header_or h (str "message-id") (FText []) (FText s) -> (forall host, ~ id_host U s host) ->
  message_id_tokens U h = ([WStr (str "message-id:invalid")], None).
Proof.
  intros Hh Hi. apply (hget_default_or _ (str "message-id")) in Hh; [|done]. unfold message_id_tokens. rewrite Hh.
  change (start s) with (at_ [] s). destruct (rmatch1 (message_id_re U) (at_ [] s)) as [[d g]|] eqn:E; [|done].
  exfalso. by apply id_group, Hi in E.
Qed.
Lemma message_id_err U h x : header_or h (str "message-id") (FText []) x -> (forall s, x <> FText s) ->
  message_id_tokens U h = ([], Some TypeError).
Proof.
  intros H Hx. apply (hget_default_or _ (str "message-id")) in H; [|done]. unfold message_id_tokens. rewrite H.
  destruct x as [|s|s]; [done|by destruct (Hx s)|done].
Qed.

(** ** Received headers *)

Lemma is_az_spec c : is_az c = true <-> small_letter c.
Proof. unfold is_az, small_letter. by rewrite andb_true_iff, !N.leb_le. Qed.
Lemma is_hostchar_spec c : is_hostchar c = true <-> host_char c.
Proof.
  unfold is_hostchar, host_char. change (str "._-") with [46; 95; 45]%N.
  rewrite !orb_true_iff, is_az_spec, !N.eqb_eq, !elem_of_cons, elem_of_nil. unfold is_num. rewrite andb_true_iff, !N.leb_le. tauto.
Qed.
Lemma truth {A} (p : A -> bool) c : p c = true <-> p c = true.
Proof. done. Qed.

Lemma complaint_spec U x w y : matches (received_complaints_re U) x w y <-> complaint U x w y.
Proof.
  unfold received_complaints_re, complaint. split.
  - intros (a & v & -> & M1 & w1 & v1 & -> & M2 & v2 & z & -> & M3 & M4). apply matches_ch in M1 as ->. apply matches_ch in M4 as ->.
    apply matches_plus_chars in M2 as [M2 M2']. apply (forallb_Forall _ _ is_az_spec) in M2'.
    assert (forall x m y, matches (RSeq (rplus (RChr (u_space U))) (rplus (RChr is_az))) x m y ->
      exists sp v, m = sp ++ v /\ sp <> [] /\ v <> [] /\ Forall (fun c => u_space U c = true) sp /\ Forall small_letter v) as HM.
    { intros x0 m y0 (sp & v & -> & K1 & K2). apply matches_plus_chars in K1 as [? K1], K2 as [? K2].
      apply (forallb_Forall _ _ (truth (u_space U))) in K1. apply (forallb_Forall _ _ is_az_spec) in K2. by exists sp, v. }
    assert (forall x v y, repeated (matches (RSeq (rplus (RChr (u_space U))) (rplus (RChr is_az)))) x v y ->
      exists more, v = mjoin more /\ Forall (fun m => exists sp v, m = sp ++ v /\ sp <> [] /\ v <> [] /\
        Forall (fun c => u_space U c = true) sp /\ Forall small_letter v) more) as HR.
    { intros x0 v y0 K. induction K as [|x0 m v y0 Hne Hm _ (more & -> & IH)]; [by exists []|].
      exists (m :: more). split; [done|]. constructor; [by eapply HM|done]. }
    destruct M3 as (m & v3 & -> & M3 & M5). apply HM in M3. apply HR in M5 as (more & -> & HF).
    exists w1, (m :: more). split_and!; [|done|done|done|by constructor]. simpl. by rewrite <- !app_assoc.
  - intros (w1 & more & -> & H1 & H2 & H3 & H4).
    exists (str "("), (w1 ++ mjoin more ++ str ")"). split; [done|]. split; [by apply matches_ch|].
    exists w1, (mjoin more ++ str ")"). split; [done|]. split.
    { apply matches_plus_chars. split; [done|]. by apply (forallb_Forall _ _ is_az_spec). }
    exists (mjoin more), (str ")"). split; [done|]. split; [|by apply matches_ch].
    assert (forall m, (exists sp v, m = sp ++ v /\ sp <> [] /\ v <> [] /\ Forall (fun c => u_space U c = true) sp /\ Forall small_letter v) ->
      m <> [] /\ forall x y, matches (RSeq (rplus (RChr (u_space U))) (rplus (RChr is_az))) x m y) as HM.
    { intros m (sp & v & -> & K1 & K2 & K3 & K4). split; [by destruct sp|]. intros x0 y0. exists sp, v. split; [done|].
      split; apply matches_plus_chars; (split; [done|]);
      [by apply (forallb_Forall _ _ (truth (u_space U)))|by apply (forallb_Forall _ _ is_az_spec)]. }
    destruct more as [|m more]; [done|]. inversion H4 as [|? ? Hm Hmore]; subst. exists m, (mjoin more). split; [done|].
    split; [by apply HM|]. cbn [matches]. clear -HM Hmore. generalize ((x ++ str "(") ++ w1) as x0. intros x0.
    generalize (x0 ++ m) as x1. clear x0 m. induction Hmore as [|m more Hm _ IH]; intros x1; [constructor|].
    change (mjoin (m :: more)) with (m ++ mjoin more). destruct (HM m Hm) as [K1 K2]. constructor; [done|apply K2|apply IH].
Qed.

Lemma complaint_nonempty U x w y : complaint U x w y -> w <> [].
Proof. by intros (w1 & more & -> & _). Qed.

Lemma ends_first (P : N -> Prop) u e y u' e' y' : Forall (fun c => ~ P c) u -> P e -> Forall (fun c => ~ P c) u' -> P e' ->
  (u ++ [e]) ++ y = (u' ++ [e']) ++ y' -> u ++ [e] = u' ++ [e'].
Proof.
  intros Hu He Hu' He' E. rewrite <- !app_assoc in E.
  destruct (run_split (fun c => ~ P c) u u' ([e] ++ y) ([e'] ++ y')) as [-> E']; [done|done| | |done|].
  - intros c rest [= <- _] H. done.
  - intros c rest [= <- _] H. done.
  - by injection E' as -> _.
Qed.

Lemma complaint_functional U : sane U -> functional (complaint U).
Proof.
  intros HU x w y w' y' E H H'.
  assert (forall w, complaint U x w y \/ complaint U x w y' -> exists u, w = u ++ [41%N] /\ Forall (fun c => ~ c = 41%N) u) as HC.
  { clear -HU. intros w H. assert (exists y, complaint U x w y) as (y0 & w1 & more & -> & H1 & H2 & H3 & H4) by naive_solver.
    exists (str "(" ++ w1 ++ mjoin more). split; [by rewrite <- !app_assoc|]. apply Forall_app. split; [by repeat constructor|].
    assert (forall v, Forall small_letter v -> Forall (fun c => ~ c = 41%N) v) as HL.
    { intros v Hv. eapply Forall_impl; [exact Hv|]. unfold small_letter. lia. }
    apply Forall_app. split; [by apply HL|]. clear H H1 H2 H3. induction H4 as [|m more (sp & v & -> & _ & _ & K1 & K2) _ IH]; [constructor|].
    change (mjoin ((sp ++ v) :: more)) with ((sp ++ v) ++ mjoin more). rewrite !Forall_app. split_and!; [|by apply HL|done].
    eapply Forall_impl; [exact K1|]. intros c Hc ->. simpl in Hc. by rewrite space_not in Hc. }
  destruct (HC w) as (u & -> & Hu); [by left|]. destruct (HC w') as (u' & -> & Hu'); [by right|].
  by apply (ends_first (fun c => c = 41%N) u 41 y u' 41 y').
Qed.

Lemma host_group U x s d g : rmatch1 (received_host_re U) (at_ x s) = Some (d, g) ->
  exists w y, s = w ++ y /\ d = at_ (x ++ w) y /\ from_host U w (the_group 1 g).
Proof.
  intros H. apply rmatch1_in in H. unfold received_host_re in H.
  apply elem_of_seq in H as (e1 & g1 & h1 & H1 & H & ->).
  destruct (proj1 (results_matches _ _ _) _ _ H1) as (fr & y1 & -> & -> & M1).
  apply (groupless_caps (rlit (str "from ")) eq_refl) in H1 as ->.
  apply elem_of_seq in H as (e2 & g2 & h2 & H2 & H & ->).
  apply elem_of_group in H2 as (g2' & -> & H2).
  destruct (proj1 (results_matches _ _ _) _ _ H2) as (host & y2 & -> & -> & M2).
  apply (groupless_caps (RSeq (rplus (RChr is_hostchar)) (RChr is_az)) eq_refl) in H2 as ->.
  destruct (proj1 (results_matches _ _ _) _ _ H) as (en & y3 & -> & -> & M3).
  apply (groupless_caps (RChr (fun c => (c =? 41)%N || u_space U c)) eq_refl) in H as ->.
  apply matches_lit in M1 as ->. destruct M2 as (l & v & -> & M2 & c & -> & Hc), M3 as (e & -> & He).
  apply matches_plus_chars in M2 as [M2 M2']. apply (forallb_Forall _ _ is_hostchar_spec) in M2'. apply is_az_spec in Hc.
  apply orb_true_iff in He. rewrite N.eqb_eq in He. rewrite between_at. unfold the_group. simpl.
  exists (str "from " ++ (l ++ [c]) ++ [e]), y3. split_and!; [by rewrite <- !app_assoc|by rewrite <- !app_assoc|].
  by exists c, l, e.
Qed.
Lemma host_matches U x w y : matches (received_host_re U) x w y <-> host_here U x w y.
Proof.
  unfold received_host_re, host_here, from_host. split.
  - intros (fr & v & -> & M1 & host & v2 & -> & (l & v3 & -> & M2 & c & -> & Hc) & (e & -> & He)).
    apply matches_lit in M1 as ->. apply matches_plus_chars in M2 as [M2 M2']. apply (forallb_Forall _ _ is_hostchar_spec) in M2'.
    apply is_az_spec in Hc. apply orb_true_iff in He. rewrite N.eqb_eq in He. exists (l ++ [c]), c, l, e. done.
  - intros (host & c & l & e & -> & -> & H1 & H2 & H3 & H4).
    exists (str "from "), ((l ++ [c]) ++ [e]). split; [done|]. split; [by apply matches_lit|].
    exists (l ++ [c]), [e]. split; [done|]. split.
    + exists l, [c]. split; [done|]. split; [apply matches_plus_chars; split; [done|by apply (forallb_Forall _ _ is_hostchar_spec)]|].
      exists c. split; [done|by apply is_az_spec].
    + exists e. split; [done|]. apply orb_true_iff. by rewrite N.eqb_eq.
Qed.
Lemma from_host_det U w host host' : from_host U w host -> from_host U w host' -> host = host'.
Proof.
  intros (c & l & e & -> & _) (c' & l' & e' & E & _). apply app_inv_head in E. by apply app_inj_tail in E as [-> _].
Qed.
Lemma host_functional U : sane U -> functional (host_here U).
Proof.
  intros HU x w y w' y' E (host & c & l & e & -> & -> & _ & H2 & H3 & H4) (host' & c' & l' & e' & -> & -> & _ & H2' & H3' & H4').
  rewrite <- !(app_assoc (str "from ")) in E. apply app_inv_head in E. f_equal.
  assert (forall (l : codes) c, Forall host_char l -> small_letter c -> Forall (fun c => ~ (c = 41%N \/ u_space U c = true)) (l ++ [c])) as HH.
  { clear -HU. intros l c Hl Hc. assert (forall c, host_char c -> ~ (c = 41%N \/ u_space U c = true)) as HH.
    { intros d Hd. assert (33 <= d < 128 /\ d <> 41)%N as [? ?].
      { unfold host_char, small_letter in Hd. change (str "._-") with [46; 95; 45]%N in Hd.
        rewrite !elem_of_cons, elem_of_nil in Hd. lia. }
      rewrite space_not by done. naive_solver. }
    apply Forall_app. split; [|constructor; [|constructor]].
    - eapply Forall_impl; [exact Hl|done].
    - apply HH. by left. }
  apply (ends_first (fun c => c = 41%N \/ u_space U c = true) _ _ y _ _ y'); [by apply HH|done|by apply HH|done|done].
Qed.

Lemma octet_matches U x w y : matches (octet_re U) x w y <-> digit_group U w.
Proof.
  unfold octet_re, digit_group. split.
  - intros (u & dot & -> & (a & b & -> & (c & -> & Hc) & M1) & M2). apply matches_upto_chars in M1 as [M1 M1'].
    apply (forallb_Forall _ _ (truth (u_digit U))) in M1'. exists ([c] ++ b), dot. split_and!; [done|simpl; lia|simpl; lia|by constructor|].
    apply matches_opt in M2 as [M2| -> ]; [apply matches_ch in M2 as ->|]; rewrite !elem_of_cons; [by right; left|by left].
  - intros (ds & dot & -> & [H1 H1'] & H2 & H3). exists ds, dot. split; [done|]. destruct ds as [|c ds]; [simpl in H1; lia|].
    inversion H2; subst. split.
    + exists [c], ds. split; [done|]. split; [by exists c|]. apply matches_upto_chars. split; [simpl in H1'; lia|].
      by apply (forallb_Forall _ _ (truth (u_digit U))).
    + apply matches_opt. rewrite !elem_of_cons, elem_of_nil in H3. destruct H3 as [ -> |[ -> |[]]]; [by right|left; by apply matches_ch].
Qed.
Lemma open_spec c : ((c =? 91)%N || (c =? 40)%N) = true <-> c ∈ str "[(".
Proof. change (str "[(") with [91; 40]%N. rewrite orb_true_iff, !N.eqb_eq, !elem_of_cons, elem_of_nil. tauto. Qed.
Lemma close_spec c : ((c =? 93)%N || (c =? 41)%N) = true <-> c ∈ str "])".
Proof. change (str "])") with [93; 41]%N. rewrite orb_true_iff, !N.eqb_eq, !elem_of_cons, elem_of_nil. tauto. Qed.

Lemma four_matches U x w y : matches (RSeq (octet_re U) (RSeq (octet_re U) (RSeq (octet_re U) (octet_re U)))) x w y <->
  exists o1 o2 o3 o4, w = o1 ++ o2 ++ o3 ++ o4 /\ digit_group U o1 /\ digit_group U o2 /\ digit_group U o3 /\ digit_group U o4.
Proof.
  cbn [matches]. split.
  - intros (o1 & v1 & -> & M1 & o2 & v2 & -> & M2 & o3 & o4 & -> & M3 & M4).
    apply octet_matches in M1, M2, M3, M4. by exists o1, o2, o3, o4.
  - intros (o1 & o2 & o3 & o4 & -> & H1 & H2 & H3 & H4).
    exists o1, (o2 ++ o3 ++ o4). split; [done|]. split; [by apply octet_matches|].
    exists o2, (o3 ++ o4). split; [done|]. split; [by apply octet_matches|].
    exists o3, o4. split; [done|]. split; by apply octet_matches.
Qed.
Lemma ip_group U x s d g : rmatch1 (received_ip_re U) (at_ x s) = Some (d, g) ->
  exists w y, s = w ++ y /\ d = at_ (x ++ w) y /\ bracketed U w (the_group 1 g).
Proof.
  intros H. apply rmatch1_in in H. unfold received_ip_re in H.
  apply elem_of_seq in H as (e1 & g1 & h1 & H1 & H & ->).
  destruct (proj1 (results_matches _ _ _) _ _ H1) as (fr & y1 & -> & -> & M1).
  apply (groupless_caps (RChr (fun c => (c =? 91)%N || (c =? 40)%N)) eq_refl) in H1 as ->.
  apply elem_of_seq in H as (e2 & g2 & h2 & H2 & H & ->).
  apply elem_of_group in H2 as (g2' & -> & H2).
  destruct (proj1 (results_matches _ _ _) _ _ H2) as (ip & y2 & -> & -> & M2).
  apply (groupless_caps (RSeq (octet_re U) (RSeq (octet_re U) (RSeq (octet_re U) (octet_re U)))) eq_refl) in H2 as ->.
  destruct (proj1 (results_matches _ _ _) _ _ H) as (en & y3 & -> & -> & M3).
  apply (groupless_caps (RChr (fun c => (c =? 93)%N || (c =? 41)%N)) eq_refl) in H as ->.
  destruct M1 as (a & -> & Ha), M3 as (b & -> & Hb). apply open_spec in Ha. apply close_spec in Hb.
  apply four_matches in M2 as (o1 & o2 & o3 & o4 & -> & M2). rewrite between_at. unfold the_group. simpl.
  exists ([a] ++ (o1 ++ o2 ++ o3 ++ o4) ++ [b]), y3. split_and!; [by rewrite <- !app_assoc|by rewrite <- !app_assoc|].
  by exists a, b, o1, o2, o3, o4.
Qed.
Lemma ip_matches U x w y : matches (received_ip_re U) x w y <-> ip_here U x w y.
Proof.
  unfold received_ip_re, ip_here, bracketed. split.
  - intros (u & v & -> & (a & -> & Ha) & ip & v2 & -> & M2 & (b & -> & Hb)). apply open_spec in Ha. apply close_spec in Hb.
    apply four_matches in M2 as (o1 & o2 & o3 & o4 & -> & M2). by exists (o1 ++ o2 ++ o3 ++ o4), a, b, o1, o2, o3, o4.
  - intros (ip & a & b & o1 & o2 & o3 & o4 & -> & Ha & Hb & E & H).
    exists [a], (ip ++ [b]). split; [done|]. split; [exists a; split; [done|by apply open_spec]|].
    exists ip, [b]. split; [done|]. split; [apply four_matches; by exists o1, o2, o3, o4|]. exists b. split; [done|by apply close_spec].
Qed.
Lemma bracketed_det U w ip ip' : bracketed U w ip -> bracketed U w ip' -> ip = ip'.
Proof.
  intros (a & b & o1 & o2 & o3 & o4 & -> & _) (a' & b' & o1' & o2' & o3' & o4' & E & _). injection E as _ E.
  by apply app_inj_tail in E as [-> _].
Qed.
Lemma ip_functional U : sane U -> functional (ip_here U).
Proof.
  intros HU x w y w' y' E (ip & a & b & o1 & o2 & o3 & o4 & -> & _ & Hb & -> & H1 & H2 & H3 & H4)
    (ip' & a' & b' & o1' & o2' & o3' & o4' & -> & _ & Hb' & -> & H1' & H2' & H3' & H4').
  rewrite <- !(app_assoc [_]) in E. injection E as -> E. f_equal.
  assert (forall o, digit_group U o -> Forall (fun c => ~ c ∈ str "])") o) as HH.
  { clear -HU. intros o (ds & dot & -> & _ & H2 & H3). destruct HU as (_ & _ & HD). apply Forall_app. split.
    - eapply Forall_impl; [exact H2|]. intros c Hc Hin. simpl in Hc. change (str "])") with [93; 41]%N in Hin.
      rewrite !elem_of_cons, elem_of_nil in Hin.
      destruct Hin as [ -> |[ -> |[]]]; apply HD in Hc; lia.
    - rewrite !elem_of_cons, elem_of_nil in H3. destruct H3 as [ -> |[ -> |[]]]; [constructor|].
      constructor; [|constructor]. change (str "])") with [93; 41]%N. rewrite !elem_of_cons, elem_of_nil. by intros [?|[?|[]]]. }
  apply (ends_first (fun c => c ∈ str "])") _ _ y _ _ y'); [|done| |done|done]; rewrite !Forall_app; split_and!; by apply HH.
Qed.
