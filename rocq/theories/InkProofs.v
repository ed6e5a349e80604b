(** * Invisible sections do not matter (C136) *)
From Coq Require Import String.
From Verif Require Import Py NumModel ClassifierModel TrainSpec TrainProofs ScoreSpec ScoreProofs Regex RegexSpec RegexProofs StripModel StripSpec StripProofs RaiseModel RaiseProofs
  TokenModel TokenSpec TokenProofs MessageModel HeadModel TreeModel TreeSpec TreeProofs SeenSpec SeenProofs LayoutSpec LayoutProofs InkSpec.
Local Open Scope N_scope.

(** ** One pass of a stripper *)
Section pass.
  Context (Sb Se : codes -> codes -> codes -> Prop) (sec other : codes -> Prop).

  (** No section begins inside of k, whatever surrounds it. *)
  Definition clean (k : codes) : Prop :=
    forall x a b y w z, k = a ++ b -> b <> [] -> b ++ y = w ++ z -> ~ Sb (x ++ a) w z.

  Inductive pass : codes -> codes -> Prop :=
    | pass_nil : pass [] []
    | pass_keep s t v : other s -> pass t v -> pass (s ++ t) (s ++ v)
    | pass_drop s t v : sec s -> pass t v -> pass (s ++ t) v.

  Hypothesis Hne : forall x w y, Sb x w y -> w <> [].
  Hypothesis Hother : forall s, other s -> clean s.
  Hypothesis Hsec : forall s, sec s -> exists w c e, s = w ++ c ++ e /\ (forall x y, Sb x w y) /\
    (forall x y, Se x e y) /\ forall x y a w' z, c ++ e ++ y = a ++ w' ++ z -> Se (x ++ a) w' z -> (length c <= length a)%nat.

  Lemma clean_nil : clean [].
  Proof. intros x a b y w z E Hb. symmetry in E. apply app_eq_nil in E as [_ ->]. done. Qed.

  Lemma clean_app k s : clean k -> clean s -> clean (k ++ s).
  Proof.
    intros Hk Hs x a b y w z E Hb Ew HS. apply app_eq_inv in E as [(l & -> & ->)|(l & -> & ->)].
    - destruct l as [|c l].
      + apply (Hs (x ++ a) [] s y w z); [done|done|done|by rewrite app_nil_r].
      + apply (Hk x a (c :: l) (s ++ y) w z); [done|done| |done]. by rewrite (assoc_L (++)).
    - apply (Hs (x ++ k) l b y w z); [done|done|done|]. by rewrite <- (assoc_L (++)).
  Qed.

  Lemma pass_stripped t v : pass t v -> forall x k, clean k -> exists ws, stripped Sb Se x (k ++ t) (k ++ v) ws.
  Proof.
    induction 1 as [|s t v Ho Hp IH|s t v Hs Hp IH]; intros x k Hk.
    - exists []. rewrite app_nil_r. constructor. intros a w y E HS.
      apply (Hk x a (w ++ y) [] w y); [done| |by rewrite app_nil_r|done].
      intros E2. apply app_eq_nil in E2 as [-> _]. by eapply Hne.
    - rewrite !(assoc_L (++)). apply IH. apply clean_app; [done|]. by apply Hother.
    - destruct (Hsec s Hs) as (w & c & e & -> & HSb & HSe & Hmin).
      destruct (IH (x ++ k ++ w ++ c ++ e) [] clean_nil) as (ws & Hst).
      exists (w :: ws). apply (strip_section _ _ _ _ k w (c ++ e ++ t) c e t).
      + split_and!; [by rewrite <- !(assoc_L (++))|apply HSb|]. intros a w' y' E HS'.
        destruct (decide (length k <= length a)%nat) as [|Hlt]; [done|]. exfalso.
        apply app_eq_inv in E as [(l & -> & E)|(l & -> & E)].
        2:{ apply Hlt. rewrite app_length. lia. }
        apply (Hk x a l ((w ++ c ++ e) ++ t) w' y'); [done| |by rewrite E|done].
        intros ->. rewrite app_nil_r in Hlt. lia.
      + split_and!; [done|apply HSe|]. intros a w' y' E HS'. by eapply Hmin.
      + exact Hst.
  Qed.
End pass.

(** ** What follows an angle bracket *)
Definition opens (n : N) (s : codes) : Prop := exists sp r, s = 60 :: sp ++ n :: r /\ Forall blank sp /\ ~ blank n.

Lemma opens_det n n' s : opens n s -> opens n' s -> n = n'.
Proof.
  intros (sp & r & -> & H1 & H2) (sp' & r' & E & H1' & H2'). injection E as E.
  by destruct (run_unique blank _ _ _ _ _ _ H1 H1' H2 H2' E) as (_ & ? & _).
Qed.

Lemma opens_app n s y : opens n s -> opens n (s ++ y).
Proof.
  intros (sp & r & -> & H1 & H2). exists sp, (r ++ y). split; [|done]. cbn. by rewrite <- (assoc_L (++)).
Qed.

Lemma not_blank_lit c : c ∈ [33; 47; 99; 110; 115] -> ~ blank c.
Proof. rewrite !elem_of_cons, elem_of_nil. intros H B. unfold blank in B. rewrite !elem_of_cons, elem_of_nil in B. lia. Qed.

Lemma style_opens x w y : style_start x w y -> opens 115 (w ++ y).
Proof.
  intros (sp & at_ & -> & H1 & _). eexists sp, _. split; [|split; [done|apply not_blank_lit; set_solver]].
  change (str "style") with [115; 116; 121; 108; 101]. cbn. by rewrite <- !(assoc_L (++)).
Qed.
Lemma comment_opens x w y : comment_start x w y -> opens 33 (w ++ y) \/ opens 99 (w ++ y).
Proof.
  intros [-> |(sp & at_ & -> & H1 & _)].
  - left. eexists [], _. split; [done|]. split; [done|apply not_blank_lit; set_solver].
  - right. eexists sp, _. split; [|split; [done|apply not_blank_lit; set_solver]].
    change (str "comment") with [99; 111; 109; 109; 101; 110; 116]. cbn. by rewrite <- !(assoc_L (++)).
Qed.
Lemma noframes_opens x w y : noframes_start x w y -> opens 110 (w ++ y).
Proof.
  intros (sp & at_ & -> & H1 & _). eexists sp, _. split; [|split; [done|apply not_blank_lit; set_solver]].
  change (str "noframes") with [110; 111; 102; 114; 97; 109; 101; 115]. cbn. by rewrite <- !(assoc_L (++)).
Qed.
Lemma close_opens r : opens 47 (60 :: 47 :: r).
Proof. eexists [], _. split; [done|]. split; [done|apply not_blank_lit; set_solver]. Qed.

(** A segment with an angle bracket at its beginning and perhaps one at its end *)
Lemma two_brackets (P : codes -> Prop) u e : 60 ∉ u -> (60 ∉ e \/ exists r, e = 60 :: r /\ 60 ∉ r) -> P (60 :: u ++ e) -> (head e = Some 60 -> P e) ->
  forall a b, 60 :: u ++ e = a ++ 60 :: b -> P (60 :: b).
Proof.
  intros Hu He H1 H2 a b E. destruct a as [|c a].
  { cbn in E. injection E as <-. done. }
  injection E as _ E. apply app_eq_inv in E as [(l & -> & E)|(l & -> & E)].
  - destruct l as [|d l].
    + cbn in E. subst e. by apply H2.
    + injection E as <- _. exfalso. apply Hu. set_solver.
  - destruct He as [He|(r & -> & Hr)]; [exfalso; apply He; rewrite E; set_solver|].
    destruct l as [|d l]; [cbn in E; injection E as ->; by apply H2|]. injection E as _ ->. exfalso. apply Hr. set_solver.
Qed.

Lemma clean_opens (Sb : codes -> codes -> codes -> Prop) (ns : list N) k :
  (forall x w y, Sb x w y -> exists n, n ∈ ns /\ opens n (w ++ y)) ->
  (forall a b, k = a ++ 60 :: b -> exists n, n ∉ ns /\ opens n (60 :: b)) -> clean Sb k.
Proof.
  intros HS Hk x a b y w z -> Hb E H. destruct (HS _ _ _ H) as (n & Hn & Ho). rewrite <- E in Ho.
  destruct b as [|c b]; [done|]. assert (c = 60) as -> by (destruct Ho as (? & ? & [= -> _] & _); done).
  destruct (Hk a b eq_refl) as (n' & Hn' & Ho'). apply (opens_app _ _ y) in Ho'. by rewrite (opens_det _ _ _ Ho Ho') in Hn.
Qed.

Lemma clean_char (Sb : codes -> codes -> codes -> Prop) (ns : list N) c : (forall x w y, Sb x w y -> exists n, n ∈ ns /\ opens n (w ++ y)) -> c <> 60 -> clean Sb [c].
Proof.
  intros HS Hc. eapply clean_opens; [exact HS|]. intros [|d a] b E.
  - by injection E as -> _.
  - injection E as _ E. symmetry in E. by apply app_eq_nil in E as [_ ?].
Qed.

Lemma comment_section_clean (Sb : codes -> codes -> codes -> Prop) (ns : list N) s : (forall x w y, Sb x w y -> exists n, n ∈ ns /\ opens n (w ++ y)) ->
  33 ∉ ns -> 99 ∉ ns -> 47 ∉ ns -> hidden_comment s -> clean Sb s.
Proof.
  intros HS N1 N2 N3 (w & c & e & -> & H1 & Hw & Hc & _ & He). eapply clean_opens; [exact HS|].
  rewrite (assoc_L (++) w c e). intros a b. apply (two_brackets (fun s => exists n, n ∉ ns /\ opens n s)).
  - set_solver.
  - destruct He as [-> | ->]; [left; in_literal|right; eexists; split; [reflexivity|in_literal]].
  - rewrite <- (assoc_L (++)). change (60 :: w ++ c ++ e) with ((60 :: w) ++ (c ++ e)).
    assert (comment_start [] (60 :: w) (c ++ e)) as H by exact H1. apply comment_opens in H as [H|H]; eauto.
  - intros Hd. destruct He as [-> | ->]; [done|]. exists 47. split; [done|]. apply close_opens.
Qed.

Lemma noframes_section_clean (Sb : codes -> codes -> codes -> Prop) (ns : list N) s : (forall x w y, Sb x w y -> exists n, n ∈ ns /\ opens n (w ++ y)) ->
  110 ∉ ns -> 47 ∉ ns -> hidden_noframes s -> clean Sb s.
Proof.
  intros HS N1 N2 (w & c & e & -> & H1 & Hc & (se & -> & Hse)). eapply clean_opens; [exact HS|].
  assert (exists w', w = 60 :: w' /\ 60 ∉ w') as (w' & -> & Hw').
  { destruct H1 as (sp & sp' & -> & B1 & B2). eexists. split; [reflexivity|]. rewrite Forall_forall in B1, B2.
    rewrite !elem_of_app. intros [H|[H|[H|H]]].
    - specialize (B1 _ H). unfold blank in B1. set_solver.
    - revert H. in_literal.
    - specialize (B2 _ H). unfold blank in B2. set_solver.
    - revert H. in_literal. }
  cbn [app]. rewrite (assoc_L (++) w' c). intros a b. apply (two_brackets (fun s => exists n, n ∉ ns /\ opens n s)).
  - set_solver.
  - right. eexists. split; [reflexivity|]. rewrite Forall_forall in Hse. rewrite !elem_of_cons, elem_of_app.
    intros H. repeat (destruct H as [H|H]; [discriminate H|]). destruct H as [H|H].
    + specialize (Hse _ H). unfold blank in Hse. set_solver.
    + revert H. in_literal.
  - rewrite <- (assoc_L (++)). change (60 :: w' ++ c ++ ?e) with ((60 :: w') ++ (c ++ e)). exists 110. split; [done|].
    apply (noframes_opens []). exact H1.
  - intros _. exists 47. split; [done|]. apply close_opens.
Qed.

(** ** The sections are removed *)
Lemma style_ends s : hidden_style s -> exists w c e, s = w ++ c ++ e /\ (forall x y, style_start x w y) /\
  (forall x y, style_end x e y) /\ forall x y a w' z, c ++ e ++ y = a ++ w' ++ z -> style_end (x ++ a) w' z -> (length c <= length a)%nat.
Proof.
  intros (w & c & -> & H1 & H2). exists w, c, (str "</style>"). split_and!; [done|intros; exact H1|done|].
  intros x y a w' z E ->. destruct (decide (length c <= length a)%nat) as [|Hlt]; [done|]. exfalso.
  apply app_eq_inv in E as [(l & -> & E)|(l & -> & E)].
  2:{ rewrite app_length in Hlt. lia. }
  change (str "</style>") with [60; 47; 115; 116; 121; 108; 101; 62] in *.
  destruct l as [|c0 l]; [rewrite app_nil_r in Hlt; lia|].
  do 7 (destruct l as [|? l]; [cbn in E; by simplify_eq|]).
  cbn in E. simplify_eq. apply H2. exists a, l. done.
Qed.
Lemma comment_ends s : hidden_comment s -> exists w c e, s = w ++ c ++ e /\ (forall x y, comment_start x w y) /\
  (forall x y, comment_end x e y) /\ forall x y a w' z, c ++ e ++ y = a ++ w' ++ z -> comment_end (x ++ a) w' z -> (length c <= length a)%nat.
Proof.
  intros (w & c & e & -> & H1 & Hw & Hc & H2 & He). exists (60 :: w), c, e. split_and!; [done|intros; exact H1|intros; exact He|].
  intros x y a w' z E Hw'. destruct (decide (length c <= length a)%nat) as [|Hlt]; [done|]. exfalso.
  apply app_eq_inv in E as [(l & -> & E)|(l & -> & E)].
  2:{ rewrite app_length in Hlt. lia. }
  destruct l as [|c0 l]; [rewrite app_nil_r in Hlt; lia|].
  destruct Hw' as [-> | ->].
  - change (str "-->") with [45; 45; 62] in *. change (str "</comment>") with [60; 47; 99; 111; 109; 109; 101; 110; 116; 62] in *.
    destruct l as [|c1 l]; [cbn in E; destruct He as [-> | ->]; cbn in E; by simplify_eq|].
    destruct l as [|c2 l]; [cbn in E; destruct He as [-> | ->]; cbn in E; by simplify_eq|].
    cbn in E. simplify_eq. apply H2. exists a, l. done.
  - change (str "</comment>") with (60 :: str "/comment>") in E. cbn [app] in E. injection E as <- _. apply Hc. set_solver.
Qed.
Lemma noframes_ends s : hidden_noframes s -> exists w c e, s = w ++ c ++ e /\ (forall x y, noframes_start x w y) /\
  (forall x y, noframes_end x e y) /\ forall x y a w' z, c ++ e ++ y = a ++ w' ++ z -> noframes_end (x ++ a) w' z -> (length c <= length a)%nat.
Proof.
  intros (w & c & e & -> & H1 & Hc & He). exists w, c, e. split_and!; [done|intros; exact H1|intros; exact He|].
  intros x y a w' z E (sp & -> & _). destruct (decide (length c <= length a)%nat) as [|Hlt]; [done|]. exfalso.
  apply app_eq_inv in E as [(l & -> & E)|(l & -> & E)].
  2:{ rewrite app_length in Hlt. lia. }
  destruct l as [|c0 l]; [rewrite app_nil_r in Hlt; lia|].
  change (str "</noframes") with (60 :: str "/noframes") in E. cbn [app] in E. injection E as <- _. apply Hc. set_solver.
Qed.

(** ** Three passes *)
Definition is_char (s : codes) : Prop := exists c, s = [c] /\ c <> 60.
Definition keep1 (s : codes) : Prop := is_char s \/ hidden_comment s \/ hidden_noframes s.
Definition keep2 (s : codes) : Prop := is_char s \/ hidden_noframes s.

Lemma inked_passes t v : inked t v -> exists t2 t3,
  pass hidden_style keep1 t t2 /\ pass hidden_comment keep2 t2 t3 /\ pass hidden_noframes is_char t3 v.
Proof.
  induction 1 as [|c t v Hc _ (t2 & t3 & P1 & P2 & P3)|s t v Hs _ (t2 & t3 & P1 & P2 & P3)].
  - exists [], []. split_and!; constructor.
  - assert (is_char [c]) as H by (by exists c).
    exists ([c] ++ t2), ([c] ++ t3). split_and!.
    + apply (pass_keep _ _ [c]); [by left|done].
    + apply (pass_keep _ _ [c]); [by left|done].
    + by apply (pass_keep _ _ [c]).
  - destruct Hs as [Hs|[Hs|Hs]].
    + exists t2, t3. split_and!; [by apply pass_drop|done..].
    + exists (s ++ t2), t3. split_and!; [apply pass_keep; [by right; left|done]|by apply pass_drop|done].
    + exists (s ++ t2), (s ++ t3). split_and!; [apply pass_keep; [by right; right|done]|apply pass_keep; [by right|done]|by apply pass_drop].
Qed.

Lemma style_ns x w y : style_start x w y -> exists n, n ∈ [115] /\ opens n (w ++ y).
Proof. intros H. exists 115. split; [left|by eapply style_opens]. Qed.
Lemma comment_ns x w y : comment_start x w y -> exists n, n ∈ [33; 99] /\ opens n (w ++ y).
Proof. intros H. destruct (comment_opens _ _ _ H); [exists 33|exists 99]; (split; [in_literal|done]). Qed.
Lemma noframes_ns x w y : noframes_start x w y -> exists n, n ∈ [110] /\ opens n (w ++ y).
Proof. intros H. exists 110. split; [left|by eapply noframes_opens]. Qed.

Lemma opens_nonempty n w : opens n w -> w <> [].
Proof. by intros (? & ? & -> & _). Qed.

Lemma inked_left_over t v : inked t v -> ~ occurs url_here t -> left_over t v [].
Proof.
  intros H HU. destruct (inked_passes t v H) as (t2 & t3 & P1 & P2 & P3).
  assert (exists s2, stripped style_start style_end [] t t2 s2) as (s2 & S2).
  { apply (pass_stripped style_start style_end hidden_style keep1 ltac:(by intros ? ? ? (? & ? & -> & _)) ) with (x := []) (k := []) in P1; [done| |apply style_ends|apply clean_nil].
    intros s [(c & -> & Hc)|[Hs|Hs]].
    - by apply (clean_char _ _ _ style_ns).
    - apply (comment_section_clean _ _ _ style_ns); [in_literal..|done].
    - apply (noframes_section_clean _ _ _ style_ns); [in_literal..|done]. }
  assert (exists s3, stripped comment_start comment_end [] t2 t3 s3) as (s3 & S3).
  { apply (pass_stripped comment_start comment_end hidden_comment keep2 ltac:(by intros ? ? ? [-> |(? & ? & -> & _)])) with (x := []) (k := []) in P2; [done| |apply comment_ends|apply clean_nil].
    intros s [(c & -> & Hc)|Hs].
    - by apply (clean_char _ _ _ comment_ns).
    - apply (noframes_section_clean _ _ _ comment_ns); [in_literal..|done]. }
  assert (exists s4, stripped noframes_start noframes_end [] t3 v s4) as (s4 & S4).
  { apply (pass_stripped noframes_start noframes_end hidden_noframes is_char ltac:(by intros ? ? ? (? & ? & -> & _))) with (x := []) (k := []) in P3; [done| |apply noframes_ends|apply clean_nil].
    intros s (c & -> & Hc). by apply (clean_char _ _ _ noframes_ns). }
  exists t, t2, t3, s2, s3, s4. split_and!; [|done..]. constructor. exact (proj2 (nowhere_occurs _ _) HU).
Qed.

(** ** The tokens of a text with invisible sections *)
Lemma simple_payload b t v : Forall2 lower_of b t -> left_over t v [] -> simple t ->
  tokenize_payload b = match sub_with_text breaking_entity_re v with
    | Err e => gerr e
    | Ok text => match sub_with_text html_re text with Err e => gerr e | Ok text => tokenize_text text end end.
Proof.
  intros HL HO (HN & HU & _ & HV). apply lower_unique in HL as ->. unfold tokenize_payload.
  destruct (sub_with_text_cases _ _ numeric_entity_spec b) as [[-> _]|[_ H]].
  2:{ exfalso. by apply HN, numeric_entity_lower. }
  set (k := fun text => match sub_with_text breaking_entity_re text with
    | Err e => gerr e
    | Ok text => match sub_with_text html_re text with Err e => gerr e | Ok text => tokenize_text text end end).
  destruct (crack_spec (blower b) k HU) as (t' & urls & tss & HLO & HUT & EC). cbv zeta. rewrite EC.
  destruct (left_over_det _ _ _ _ _ HLO HO) as [-> ->]. inversion HUT; subst.
  assert (virus_tokens (blower b) = []) as ->.
  { unfold virus_tokens. pose proof (findall_found _ _ (blower b) virus_spec virus_nonempty) as HF.
    destruct (findall virus_re (blower b)) as [|w ws]; [done|]. exfalso. inversion HF as [|? ? k0 ? y ? HM]; subst.
    destruct HM as (E & HP & _). apply HV. by exists k0, w, y. }
  change (k v) with (match sub_with_text breaking_entity_re v with
    | Err e => gerr e
    | Ok text => match sub_with_text html_re text with Err e => gerr e | Ok text => tokenize_text text end end).
  by destruct (match sub_with_text breaking_entity_re v with | Err e => gerr e | Ok text => _ end).
Qed.

Lemma inked_self v : 60 ∉ v -> inked v v.
Proof. induction v as [|c v IH]; intros H; constructor; [set_solver|apply IH; set_solver]. Qed.

Lemma inked_no_bracket t v : inked t v -> 60 ∉ v.
Proof. induction 1; [set_solver|set_solver|done]. Qed.

Lemma inked_payload b t v u : Forall2 lower_of b t -> Forall2 lower_of u v -> inked t v -> simple t -> simple v ->
  tokenize_payload b = tokenize_payload u.
Proof.
  intros HL HL' HI Ht Hv. pose proof Ht as (_ & _ & U1 & _). pose proof Hv as (_ & _ & U2 & _).
  rewrite (simple_payload b t v HL (inked_left_over t v HI U1) Ht). symmetry.
  apply (simple_payload u v v); [done| |done]. apply inked_left_over; [|done]. apply inked_self. by eapply inked_no_bracket.
Qed.

Lemma plain_simple v : plain_body v -> Forall2 lower_of v v -> simple v.
Proof.
  intros [HP HU] HL. split_and!; [|by apply HU| |].
  - intros (x & w & y & -> & ds & -> & _). apply (not_in_absurd 38 _ _ _ _ _ HP eq_refl); [left|in_literal].
  - intros (x & w & y & -> & (p & g & -> & _) & _). apply (not_in_absurd 58 _ _ _ _ _ HP eq_refl); [|in_literal].
    rewrite !elem_of_app. right; left. in_literal.
  - intros (x & w & y & -> & [(sl & sp & n & -> & _)|[(q & -> & _)|(n & q & -> & _)]]).
    + apply (not_in_absurd 60 _ _ _ _ _ HP eq_refl); [left|in_literal].
    + apply (not_in_absurd 61 _ _ _ _ _ HP eq_refl); [|in_literal]. rewrite elem_of_app. left. in_literal.
    + apply (not_in_absurd 61 _ _ _ _ _ HP eq_refl); [|in_literal]. rewrite !elem_of_app. right; left. in_literal.
Qed.

(** What is seen of a text in lower case is in lower case. *)
Lemma lower_fixed b t c : Forall2 lower_of b t -> c ∈ t -> lower_of c c.
Proof.
  intros HL Hc. apply elem_of_list_lookup in Hc as (i & Hi). destruct (Forall2_lookup_r _ _ _ _ _ HL Hi) as (d & _ & [[? ->]|[? ->]]).
  - right. split; [lia|done].
  - by right.
Qed.
Lemma inked_elem t v c : inked t v -> c ∈ v -> c ∈ t.
Proof. induction 1; [done|set_solver|set_solver]. Qed.
Lemma inked_lower b t v : Forall2 lower_of b t -> inked t v -> Forall2 lower_of v v.
Proof.
  intros HL HI. apply Forall2_same_length_lookup_2; [done|]. intros i x y Hx Hy. rewrite Hx in Hy. injection Hy as <-.
  apply elem_of_list_lookup_2 in Hx. apply (lower_fixed b t); [done|]. by apply (inked_elem t v).
Qed.

Lemma shown_tokens b v : shows b v -> tokenize_payload b = tokenize_payload v.
Proof.
  intros (t & HL & HI & Ht & Hv). assert (Forall2 lower_of v v) as HLv by by eapply inked_lower.
  apply (inked_payload b t v v); [done..|]. by apply plain_simple.
Qed.

Lemma sight_same a2b p p' : same_sight p p' -> same_words (tokenize_part a2b p) (tokenize_part a2b p').
Proof.
  intros [->|(b&b'&v&v'&->&->&H1&H2&HT)]; [done|]. cbn [tokenize_part]. rewrite (shown_tokens _ _ H1), (shown_tokens _ _ H2).
  destruct H1 as (_ & _ & _ & _ & H1). destruct H2 as (_ & _ & _ & _ & H2). by apply plain_same.
Qed.

(** ** Messages *)
Lemma same_sight_sym p p' : same_sight p p' -> same_sight p' p.
Proof.
  intros [->|(b&b'&v&v'&->&->&H1&H2&t&t'&ws&ws'&L&L'&W&W'&Hw)]; [by left|]. right. exists b', b, v', v. split_and!; [done..|].
  exists t', t, ws', ws. split_and!; [done..|]. intros w. by rewrite Hw.
Qed.

Fixpoint alike_sym_fix (m : part) : forall m', look_alike m m' -> look_alike m' m.
Proof.
  intros m' H. destruct m as [x h [b|ps]]; inversion H as [x0 h0 h' p p' Hp|x0 h0 h' ps0 qs H1 H2]; subst.
  - constructor. intros Ht. by apply same_sight_sym, Hp.
  - assert (forall p q, p ∈ ps -> look_alike p q -> look_alike q p) as Hs.
    { clear - alike_sym_fix. induction ps as [|p ps IH]; intros p' q Hp Hq; [by apply elem_of_nil in Hp|].
      apply elem_of_cons in Hp. destruct Hp as [E|Hp]; [|by apply (IH p' q)].
      rewrite E in Hq |- *. by apply alike_sym_fix. }
    constructor.
    + intros q Hq. destruct (H2 q Hq) as (p&Hp&Hl). exists p. split; [done|]. by apply Hs.
    + intros p Hp. destruct (H1 p Hp) as (q&Hq&Hl). exists q. split; [done|]. by apply Hs.
Defined.

Lemma alike_sym m m' : look_alike m m' -> look_alike m' m.
Proof. apply alike_sym_fix. Qed.

Lemma alike_inside m m' p : inside p m -> look_alike m m' -> exists p', inside p' m' /\ look_alike p p'.
Proof.
  intros Hi. revert m'. induction Hi as [p|p q x h ps Hq Hi IH]; intros m' Ha; [exists m'; split; [constructor|done]|].
  inversion Ha as [|? ? h' ? qs H1 H2]; subst. destruct (H1 q Hq) as (q'&Hq'&Haq). destruct (IH _ Haq) as (p'&Hp'&Hap).
  exists p'. split; [|done]. by apply (inside_sub _ q').
Qed.

Lemma alike_node p p' : look_alike p p' -> part_info p = part_info p' /\ (text_type (part_info p) -> same_sight (part_payload p) (part_payload p')).
Proof. intros H. destruct H as [x h h' b b' Hb|]; cbn; auto. split; [done|]. by left. Qed.

Section messages.
  Context (U : unicode) (E : mailpkg) (o : topts) (a2b : codes -> res codes).

  Lemma alike_sub order order' m m' : parts_order_ok order -> parts_order_ok order' -> look_alike m m' ->
    (forall x, x ∈ part_info <$> walk m -> x ∈ part_info <$> walk m') /\
    (forall t, t ∈ part_payload <$> textparts order m -> exists t', t' ∈ part_payload <$> textparts order' m' /\ same_sight t t').
  Proof.
    intros Ho Ho' Ha. split.
    - intros x (p&->&Hp)%elem_of_list_fmap. apply walk_inside in Hp. destruct (alike_inside _ _ _ Hp Ha) as (p'&Hp'&Hap).
      apply elem_of_list_fmap. exists p'. split; [by apply alike_node|]. by apply walk_inside.
    - intros t H. apply (textparts_in order m t Ho) in H as (p&Hp&Ht&->). destruct (alike_inside _ _ _ Hp Ha) as (p'&Hp'&Hap).
      destruct (alike_node _ _ Hap) as [Hi Hpay]. exists (part_payload p'). split; [|by apply Hpay, is_text_spec].
      apply (textparts_in order' m' _ Ho'). exists p'. split_and!; [done| |done]. apply is_text_spec. rewrite <- Hi. by apply is_text_spec.
  Qed.

  Lemma alike_tokens order order' m m' : parts_order_ok order -> parts_order_ok order' -> count_all o = false ->
    seen (mine_received o) (part_headers m) = seen (mine_received o) (part_headers m') -> look_alike m m' ->
    same_words (tokenize_message U E order o a2b m) (tokenize_message U E order' o a2b m').
  Proof.
    intros Ho Ho' Hc Hs Ha. unfold tokenize_message. rewrite (call_seen U E o a2b _ _ _ _ Hc Hs).
    destruct (alike_sub order order' m m' Ho Ho' Ha) as [H1 H2].
    destruct (alike_sub order' order m' m Ho' Ho (alike_sym _ _ Ha)) as [H1' H2'].
    destruct (call_mem U E o a2b (part_info <$> walk m) (part_headers m') (part_payload <$> textparts order m)) as [G1 G2].
    destruct (call_mem U E o a2b (part_info <$> walk m') (part_headers m') (part_payload <$> textparts order' m')) as [K1 K2].
    set (g := tokenizer_call U E false false o a2b (part_info <$> walk m) _ _) in *.
    set (g' := tokenizer_call U E false false o a2b (part_info <$> walk m') _ _) in *. clearbody g g'.
    set (xs := part_info <$> walk m) in *. set (xs' := part_info <$> walk m') in *.
    set (ts := part_payload <$> textparts order m) in *. set (ts' := part_payload <$> textparts order' m') in *. clearbody xs xs' ts ts'.
    assert (forall x, x ∈ xs <-> x ∈ xs') as Hx by (split; auto). clear H1 H1'.
    assert ((forall t, t ∈ ts -> (tokenize_part a2b t).2 = None) <-> forall t, t ∈ ts' -> (tokenize_part a2b t).2 = None) as Hn.
    { split; intros H t Ht.
      - destruct (H2' t Ht) as (u&Hu&Hp). apply (proj1 (sight_same a2b _ _ Hp)). by apply H.
      - destruct (H2 t Ht) as (u&Hu&Hp). apply (proj1 (sight_same a2b _ _ Hp)). by apply H. }
    assert ((forall t, t ∈ ts -> (tokenize_part a2b t).2 = None) ->
      forall w, (exists t, t ∈ ts /\ w ∈ (tokenize_part a2b t).1) <-> exists t, t ∈ ts' /\ w ∈ (tokenize_part a2b t).1) as Hw.
    { intros HN w. pose proof (proj1 Hn HN) as HN'. split; intros (t&Ht&Hin).
      - destruct (H2 t Ht) as (u&Hu&Hp). exists u. split; [done|]. by apply (proj2 (sight_same a2b _ _ Hp) (HN t Ht) (HN' u Hu)).
      - destruct (H2' t Ht) as (u&Hu&Hp). exists u. split; [done|]. by apply (proj2 (sight_same a2b _ _ Hp) (HN' t Ht) (HN u Hu)). }
    clear H2 H2'. setoid_rewrite <- Hx in K1. setoid_rewrite <- Hx in K2. rewrite <- Hn in K1.
    assert (g.2 = None <-> g'.2 = None) as HN.
    { rewrite G1, K1. split; intros (Q1&Q2&Q3&Q4); split_and!; try done; intros w [H|[H|H]]; apply Q4; auto; right; right; by apply (Hw Q3). }
    split; [exact HN|]. intros Hg Hg' v. rewrite (G2 Hg), (K2 Hg'). apply G1 in Hg as (_&_&Q3&_).
    split; intros (w&b&[H|[H|H]]&Hb&->); exists w, b; (split; [|done]); auto; right; right; by apply (Hw Q3).
  Qed.

  Lemma alike_learn {A : num} it order order' m m' is_spam (ob : obj A (gmap pyword winfo)) :
    parts_order_ok order -> parts_order_ok order' -> set_order_ok it -> count_all o = false ->
    seen (mine_received o) (part_headers m) = seen (mine_received o) (part_headers m') -> look_alike m m' -> o_bigrams ob = Some false ->
    let r := learn_gen mem_backend it (tokenize_message U E order o a2b m) is_spam ob in
    let r' := learn_gen mem_backend it (tokenize_message U E order' o a2b m') is_spam ob in
    same_training r.1 r'.1 /\ is_ok r.2 = is_ok r'.2.
  Proof. intros Ho Ho' Hit Hc Hs Ha Hb. apply words_learn; [done| |done]. by apply alike_tokens. Qed.

  Lemma alike_score {A : num} (HA : total_num A) it0 it order order' m m' hist :
    parts_order_ok order -> parts_order_ok order' -> set_order_ok it0 -> set_order_ok it -> count_all o = false ->
    seen (mine_received o) (part_headers m) = seen (mine_received o) (part_headers m') -> look_alike m m' ->
    let ob := fst (run mem_backend it0 hist (c_new false ∅ : obj A (gmap pyword winfo))) in
    same_result (score_gen mem_backend it (tokenize_message U E order o a2b m) ob).2
                (score_gen mem_backend it (tokenize_message U E order' o a2b m') ob).2.
  Proof. intros Ho Ho' H0 Hit Hc Hs Ha. apply (words_score HA it0 it); [done..|]. by apply alike_tokens. Qed.
End messages.

