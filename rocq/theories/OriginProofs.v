(** * Lemmas about the origin of tokens (C138) *)
From Coq Require Import String.
From Verif Require Import Py Regex NumModel ClassifierModel TrainSpec TrainProofs ScoreSpec ClueProofs ScoreProofs StripModel StripSpec RaiseModel RaiseProofs
  CdbModel TokenModel TokenSpec TokenProofs MessageModel HeadModel HeadSpec HeadProofs HeadCallProofs OptProofs TreeModel TreeSpec TreeProofs
  SidedSpec SidedProofs OriginSpec.

(** ** Texts that differ in one of their first characters *)
Fixpoint clash (a b : codes) : bool :=
  match a, b with
  | x :: a, y :: b => if (x =? y)%N then clash a b else true
  | _, _ => false
  end.

Lemma clash_spec a b s s' : clash a b = true -> a ++ s <> b ++ s'.
Proof.
  revert b. induction a as [|x a IH]; intros [|y b]; try done. cbn [clash].
  destruct (N.eqb_spec x y) as [->|Hne]; intros H [=]; [by apply (IH b)|done].
Qed.

Definition names : list codes := labels.*1.

Lemma names_clash : forallb (fun a => forallb (fun b => bool_decide (a = b) || clash a b) names) names = true.
Proof. by vm_compute. Qed.

Lemma labels_apart l og l' og' s s' : (l, og) ∈ labels -> (l', og') ∈ labels -> l ++ s = l' ++ s' -> l = l' /\ s = s'.
Proof.
  intros H H' E. pose proof names_clash as HC. rewrite forallb_forall in HC.
  assert (In l names) as I1 by (apply elem_of_list_In, elem_of_list_fmap; by exists (l, og)).
  assert (In l' names) as I2 by (apply elem_of_list_In, elem_of_list_fmap; by exists (l', og')).
  specialize (HC l I1). rewrite forallb_forall in HC. specialize (HC l' I2). apply orb_prop in HC as [HC|HC].
  - apply bool_decide_eq_true in HC as ->. split; [done|]. by apply app_inv_head in E.
  - by apply clash_spec with (s := s) (s' := s') in HC.
Qed.

Lemma not_labelled p s : forallb (fun a => clash a p) names = true -> ~ labelled (WBytes (p ++ s)).
Proof.
  intros H (l&og&s'&Hl&[= E]). rewrite forallb_forall in H.
  assert (In l names) as I1 by (apply elem_of_list_In, elem_of_list_fmap; by exists (l, og)).
  specialize (H l I1). by apply clash_spec with (s := s') (s' := s) in H.
Qed.

Lemma utf8_ascii l s v : Forall (fun c => (c < 128)%N) l -> utf8 (l ++ s) = Ok v -> exists s', v = l ++ s'.
Proof.
  revert v. induction l as [|c l IH]; intros v Hl H; [by exists v|]. apply Forall_cons in Hl as [Hc Hl].
  cbn [app utf8] in H. unfold utf8_char in H. apply N.ltb_lt in Hc. rewrite Hc in H. cbn [rbind] in H.
  destruct (utf8 (l ++ s)) as [r|] eqn:Er; [|done]. cbn [rbind] in H. injection H as <-. destruct (IH r Hl eq_refl) as [s' ->].
  by exists s'.
Qed.

Lemma names_ascii l og : (l, og) ∈ labels -> Forall (fun c => (c < 128)%N) l.
Proof.
  intros H. assert (Forall (Forall (fun c => (c < 128)%N)) names) as Ha by (apply (bool_decide_unpack _); by vm_compute).
  rewrite Forall_forall in Ha. apply Ha. apply elem_of_list_fmap. by exists (l, og).
Qed.

(** ** Generators whose words have a label *)
Definition marks (ls : list codes) (g : gen) : Prop := forall w, w ∈ g.1 -> exists l s, l ∈ ls /\ w = WStr (l ++ s).

Lemma marks_gapp ls g h : marks ls g -> marks ls h -> marks ls (gapp g h).
Proof.
  intros Hg Hh. destruct g as [a [e|]], h as [b e']; [exact Hg|]. intros w. cbn [gapp fst].
  intros [H|H]%elem_of_app; [by apply Hg|by apply Hh].
Qed.
Lemma marks_gfor {X} ls (f : X -> gen) xs : (forall x, x ∈ xs -> marks ls (f x)) -> marks ls (gfor f xs).
Proof.
  induction xs as [|x xs IH]; intros H; [intros w Hw; by apply elem_of_nil in Hw|]. cbn [gfor].
  apply marks_gapp; [apply H; left|]. apply IH. intros y Hy. apply H. by right.
Qed.
Lemma marks_err ls e : marks ls (gerr e).
Proof. intros w Hw. by apply elem_of_nil in Hw. Qed.
Lemma marks_nil ls : marks ls (gok []).
Proof. intros w Hw. by apply elem_of_nil in Hw. Qed.
Lemma marks_one ls l s : l ∈ ls -> marks ls (gok [WStr (l ++ s)]).
Proof. intros Hl w ->%elem_of_list_singleton. by exists l, s. Qed.
Lemma marks_map {X} ls l (f : X -> codes) (xs : list X) : l ∈ ls -> marks ls (gok ((fun x => WStr (l ++ f x)) <$> xs)).
Proof. intros Hl w (x&->&_)%elem_of_list_fmap. by exists l, (f x). Qed.
Lemma marks_app ls a b : marks ls (gok a) -> marks ls (gok b) -> marks ls (gok (a ++ b)).
Proof. intros Ha Hb w. cbn. intros [H|H]%elem_of_app; [by apply Ha|by apply Hb]. Qed.
Lemma marks_label ls l ts e : l ∈ ls -> marks ls (label l ts e).
Proof.
  intros Hl. induction ts as [|[s|b|] ts IH]; cbn [label]; [intros w Hw; by apply elem_of_nil in Hw|..|by apply marks_err].
  - apply marks_gapp; [by apply marks_one|done].
  - by apply marks_err.
Qed.

Ltac listed := apply (bool_decide_unpack _); by vm_compute.

Section pieces.
  Context (U : unicode) (E : mailpkg).

  Definition part_names : list codes :=
    [str "content-type:"; str "content-type/type:"; str "charset:"; str "content-disposition:"; str "filename:"].

  Lemma crack_marks x : marks part_names (crack_content_xyz U x).
  Proof.
    unfold crack_content_xyz. apply marks_gapp; [apply marks_one; listed|]. apply marks_gapp.
    { destruct (pt_param x); [apply marks_nil|apply marks_one; listed|apply marks_err]. }
    apply marks_gapp.
    { destruct (pt_charsets x) as [cs|].
      - intros w. cbn [gok fst]. rewrite elem_of_list_In, in_flat_map. intros ([c|]&_&Hc); [|done].
        destruct Hc as [<-|[]]. exists (str "charset:"), (u_lower U c). split; [listed|done].
      - change (str "charset:invalid_unicode") with (str "charset:" ++ str "invalid_unicode"). apply marks_one; listed. }
    apply marks_gapp.
    { destruct (pt_disposition x); [apply marks_nil|apply marks_one; listed|apply marks_err]. }
    unfold filename_tokens. destruct (pt_filename x) as [f|]; [|apply marks_nil].
    destruct (crack_filename (WStr f)) as [ts e]. assert (marks part_names (label (str "filename:") ts e)) as Hm by (apply marks_label; listed).
    destruct (label (str "filename:") ts e) as [us [[]|]]; try exact Hm. apply marks_app; [exact Hm|].
    change (str "filename:<bogus>") with (str "filename:" ++ str "<bogus>"). apply marks_one; listed.
  Qed.

  Lemma subject_marks h : marks [str "subject:"; str "subjectcharset:"] (subject_tokens U E h).
  Proof.
    unfold subject_tokens. destruct (decoded E _) as [cs|e]; [|apply marks_err]. apply marks_gfor. intros [x c] _.
    unfold subject_chunk. apply marks_gapp.
    - destruct c; [apply marks_one; listed|apply marks_nil].
    - destruct x; [|apply marks_err..]. apply marks_gapp.
      + apply marks_gfor. intros w _. destruct (tokenize_word (WStr w)). apply marks_label. listed.
      + apply (marks_map _ _ (fun w => w)). listed.
  Qed.

  Lemma field_marks h f : marks [f ++ str ":"] (field_tokens U E h f).
  Proof.
    assert (forall s s', marks [f ++ str ":"] (gok [WStr (f ++ str ":" ++ s ++ s')])) as H1.
    { intros s s'. replace (f ++ str ":" ++ s ++ s') with ((f ++ str ":") ++ s ++ s') by (by rewrite <- app_assoc).
      apply marks_one. left. }
    unfold field_tokens. destruct (hget_all h f) as [|v vs].
    { change (str ":none") with (str ":" ++ str "none" ++ []). apply H1. }
    destruct (getaddresses E (v :: vs)) as [addrs|e]; [|apply marks_err]. apply marks_gapp.
    - apply marks_gfor. intros [name addr] _. unfold address_tokens. apply marks_gapp.
      + destruct name as [|c name]; [apply marks_nil|]. destruct (decoded E _) as [cs|e]; [|apply marks_err].
        apply marks_gfor. intros [n c'] _. unfold name_chunk. apply marks_gapp.
        * destruct n; [..|apply marks_err]; change (str ":name:") with (str ":" ++ str "name:"); rewrite <- app_assoc; apply H1.
        * destruct c'; [|apply marks_nil]. change (str ":charset:") with (str ":" ++ str "charset:"); rewrite <- app_assoc; apply H1.
      + destruct addr as [|c addr]; [change (str ":addr:none") with (str ":" ++ str "addr:none" ++ []); apply H1|].
        intros w (x&->&_)%elem_of_list_fmap. exists (f ++ str ":"), (str "addr:" ++ x). split; [left|].
        by rewrite <- app_assoc.
    - destruct (nonames addrs) as [|n]; [apply marks_nil|].
      change (str ":no real name:2**") with (str ":" ++ str "no real name:2**"); rewrite <- app_assoc; apply H1.
  Qed.

  Lemma summary_marks h b b' : marks [str "pfxlen:"; str "sfxlen:"] (summary_tokens U E h b b').
  Proof.
    assert (forall tag n l, tag ∈ [str "pfxlen:"; str "sfxlen:"] -> marks [str "pfxlen:"; str "sfxlen:"] (gok (affix_tokens tag n l))) as H1.
    { intros tag n l Ht. unfold affix_tokens. destruct (1 <? length l); [|apply marks_nil].
      destruct (commonprefix l); [apply marks_nil|]. by apply marks_one. }
    unfold summary_tokens. apply marks_gapp.
    - destruct b; [|apply marks_nil]. destruct (getaddresses E _); [|apply marks_err]. apply H1. listed.
    - destruct b'; [|apply marks_nil]. destruct (getaddresses E _); [|apply marks_err]. apply H1. listed.
  Qed.

  Lemma recipient_marks h f : marks [f ++ str ":"] (recipient_tokens h f).
  Proof.
    unfold recipient_tokens. destruct (count_addresses _) as [[|n]|e]; [apply marks_nil| |apply marks_err].
    change (str ":2**") with (str ":" ++ str "2**"). rewrite <- app_assoc.
    intros w ->%elem_of_list_singleton. exists (f ++ str ":"), (str "2**" ++ digits (round_log2 (Datatypes.S n))). split; [left|].
    by rewrite <- app_assoc.
  Qed.

  Lemma mailer_marks h : marks [str "x-mailer:"] (mailer_tokens U h).
  Proof. unfold mailer_tokens. destruct (hget_default _ _ _); [apply marks_err|apply marks_one; left|apply marks_err]. Qed.

  Lemma received_marks h b : marks [str "received:"] (if b : bool then gfor (received_tokens U) (hget_all h (str "received")) else gok []).
  Proof.
    destruct b; [|apply marks_nil]. apply marks_gfor. intros x _. unfold received_tokens. destruct x; [apply marks_err| |apply marks_err].
    assert (forall r f s', marks [str "received:"] (gok (received_search r f s'))) as Hr.
    { intros r f s'. unfold received_search. destruct (rsearch r (start s')) as [[[? ?] ?]|]; [|apply marks_nil].
      apply (marks_map _ _ (fun w => w)). left. }
    apply marks_app; [apply (marks_map _ _ (fun w => w)); left|]. apply marks_app; apply Hr.
  Qed.

  Lemma message_id_marks h : marks [str "message-id:"] (message_id_tokens U h).
  Proof.
    unfold message_id_tokens. destruct (hget_default _ _ _); [apply marks_err| |apply marks_err]. destruct (rmatch1 _ _) as [[? g]|].
    - change (str "message-id:@") with (str "message-id:" ++ str "@"). rewrite <- app_assoc. apply marks_one. left.
    - change (str "message-id:invalid") with (str "message-id:" ++ str "invalid"). apply marks_one. left.
  Qed.

  Lemma count_marks o h : marks [str "header:"; str "noheader:"] (gok (count_tokens o h)).
  Proof.
    unfold count_tokens. apply marks_app.
    - apply (marks_map _ (str "header:") (fun xn : codes * nat => xn.1 ++ str ":" ++ digits (N.of_nat xn.2))). left.
    - destruct (record_absence o); [|apply marks_nil].
      apply (marks_map _ (str "noheader:") (fun xn : codes * nat => xn.1)). right. left.
  Qed.

  (** The pieces of the header tokens, with their labels *)
  Definition pieces (o : topts) (parts : list mpart) (h : headers) : list (list codes * gen) :=
    [(part_names, gfor (crack_content_xyz U) parts);
     ([str "subject:"; str "subjectcharset:"], subject_tokens U E h);
     ([str "from" ++ str ":"], field_tokens U E h (str "from")); ([str "to" ++ str ":"], field_tokens U E h (str "to"));
     ([str "cc" ++ str ":"], field_tokens U E h (str "cc")); ([str "sender" ++ str ":"], field_tokens U E h (str "sender"));
     ([str "reply-to" ++ str ":"], field_tokens U E h (str "reply-to"));
     ([str "pfxlen:"; str "sfxlen:"], summary_tokens U E h (sum_prefixes o) (sum_suffixes o));
     ([str "to" ++ str ":"], recipient_tokens h (str "to")); ([str "cc" ++ str ":"], recipient_tokens h (str "cc"));
     ([str "x-mailer:"], mailer_tokens U h);
     ([str "received:"], if mine_received o then gfor (received_tokens U) (hget_all h (str "received")) else gok []);
     ([str "message-id:"], message_id_tokens U h);
     ([str "header:"; str "noheader:"], gok (count_tokens o h))].

  Lemma pieces_marks o parts h : Forall (fun p => marks p.1 p.2) (pieces o parts h).
  Proof.
    unfold pieces. repeat apply Forall_cons_2; cbn [fst snd];
      [|by apply subject_marks|by apply field_marks|by apply field_marks|by apply field_marks|by apply field_marks|by apply field_marks|
       by apply summary_marks|by apply recipient_marks|by apply recipient_marks|by apply mailer_marks|by apply received_marks|
       by apply message_id_marks|by apply count_marks|constructor].
    apply marks_gfor. intros x _. apply crack_marks.
  Qed.

  Lemma gapp_in g h : (gapp g h).2 = None -> g.2 = None /\ h.2 = None /\ forall w, w ∈ (gapp g h).1 <-> w ∈ g.1 \/ w ∈ h.1.
  Proof.
    intros H. rewrite gapp_isnone in H. destruct H as [H1 H2]. split_and!; [done..|]. intros w.
    destruct g as [a [e|]], h as [b e']; [done|]. cbn [gapp fst]. by rewrite elem_of_app.
  Qed.

  Lemma headers_pieces o parts h : (tokenize_headers U E o parts h).2 = None ->
    forall w, w ∈ (tokenize_headers U E o parts h).1 <-> exists p, p ∈ pieces o parts h /\ w ∈ p.2.1.
  Proof.
    intros H w.
    assert (w ∈ (tokenize_headers U E o parts h).1 <-> Exists (fun p : list codes * gen => w ∈ p.2.1) (pieces o parts h)) as ->;
      [|rewrite Exists_exists; done].
    unfold tokenize_headers in *. unfold pieces. rewrite !Exists_cons, Exists_nil. cbn [snd].
    apply gapp_in in H as (_&H&->). apply gapp_in in H as (_&H&->). apply gapp_in in H as (Hf&H&->).
    apply gapp_in in H as (_&H&->). apply gapp_in in H as (Hr&H&->). apply gapp_in in H as (_&H&->).
    apply gapp_in in H as (_&H&->). apply gapp_in in H as (_&H&->).
    rewrite (proj2 (gfor_set (field_tokens U E h) ADDRESS_HEADERS) Hf).
    rewrite (proj2 (gfor_set (recipient_tokens h) [str "to"; str "cc"]) Hr).
    assert ((exists x, x ∈ ADDRESS_HEADERS /\ w ∈ (field_tokens U E h x).1) <->
       w ∈ (field_tokens U E h (str "from")).1 \/ w ∈ (field_tokens U E h (str "to")).1 \/ w ∈ (field_tokens U E h (str "cc")).1 \/
       w ∈ (field_tokens U E h (str "sender")).1 \/ w ∈ (field_tokens U E h (str "reply-to")).1) as ->.
    { unfold ADDRESS_HEADERS. split.
      - intros (x&Hx&Hw). rewrite !elem_of_cons, elem_of_nil in Hx. intuition subst; tauto.
      - intros Hx. destruct Hx as [Hx|[Hx|[Hx|[Hx|Hx]]]]; eexists; (split; [|exact Hx]); rewrite !elem_of_cons; tauto. }
    assert ((exists x, x ∈ [str "to"; str "cc"] /\ w ∈ (recipient_tokens h x).1) <->
       w ∈ (recipient_tokens h (str "to")).1 \/ w ∈ (recipient_tokens h (str "cc")).1) as ->.
    { split.
      - intros (x&Hx&Hw). rewrite !elem_of_cons, elem_of_nil in Hx. intuition subst; tauto.
      - intros Hx. destruct Hx as [Hx|Hx]; eexists; (split; [|exact Hx]); rewrite !elem_of_cons; tauto. }
    tauto.
  Qed.
End pieces.

Global Instance origin_eq_dec : EqDecision origin.
Proof. solve_decision. Defined.

Lemma enc_bytes b v : enc (WBytes b) = Ok v -> v = b.
Proof. by intros [= ->]. Qed.

(** ** The tokens of a text part *)
Lemma text_tokens a2b t w v : (tokenize_part a2b t).2 = None -> w ∈ (tokenize_part a2b t).1 -> enc w = Ok v ->
  ~ labelled (WBytes v) \/
  exists b s s' urls ws, t = PBytes b /\ Forall2 lower_of b s /\ left_over s s' urls /\ words s' ws /\ v ∈ ws /\ 3 <= length v <= 12.
Proof.
  intros Hn Hw Hv. destruct (part_outcome a2b t) as [(ts&Et&Hp&_)|[Et _]]; [|congruence]. rewrite Et in Hw. cbn [fst] in Hw. clear Et Hn.
  assert (forall p s, Forall (fun c => (c < 128)%N) p -> forallb (fun a => clash a p) names = true -> w = WStr (p ++ s) -> ~ labelled (WBytes v)) as HS.
  { intros p s Ha Hc ->. cbn [enc] in Hv. destruct (utf8_ascii _ _ _ Ha Hv) as [s' ->]. by apply not_labelled. }
  destruct t as [b| |raw].
  - destruct Hp as (s&s'&urls&ws&clues&tss&wss&H1&H2&H3&_&H5&H6&->).
    rewrite !elem_of_app in Hw. destruct Hw as [Hw|[Hw|Hw]].
    + left. apply elem_of_list_fmap in Hw as (x&->&_). eapply HS; [| |done]; [listed|by vm_compute].
    + left. apply elem_of_list_join in Hw as (ts&Hw&Hts).
      apply elem_of_list_lookup in Hts as [i Hi]. destruct (Forall2_lookup_r _ _ _ _ _ H5 Hi) as (u&_&(p&g&cs&_&_&->)).
      apply elem_of_cons in Hw as [->|Hw].
      * apply enc_bytes in Hv as ->. apply not_labelled. by vm_compute.
      * apply elem_of_list_fmap in Hw as (c&->&_). apply enc_bytes in Hv as ->. apply not_labelled. by vm_compute.
    + apply elem_of_list_join in Hw as (ts&Hw&Hts).
      apply elem_of_list_lookup in Hts as [i Hi]. destruct (Forall2_lookup_r _ _ _ _ _ H6 Hi) as (u&Hu&Ht).
      destruct Ht as [[_ ->]|[[Hl ->]|(_&x&(c&r&n&_&_&->)&->)]].
      * by apply elem_of_nil in Hw.
      * apply elem_of_list_singleton in Hw as ->. apply enc_bytes in Hv as ->. right.
        exists b, s, s', urls, ws. split_and!; try done; try lia. by eapply elem_of_list_lookup_2.
      * left. apply elem_of_list_singleton in Hw as ->. eapply HS; [| |done]; [listed|by vm_compute].
  - left. cbn [part_tokens] in Hp. subst ts. apply elem_of_list_singleton in Hw as ->.
    change (str "control: payload is None") with (str "control:" ++ str " payload is None") in HS.
    eapply HS; [| |done]; [listed|by vm_compute].
  - left. cbn [part_tokens] in Hp. subst ts. apply elem_of_cons in Hw as [->|Hw].
    + eapply (HS (str "control:") (str " couldn't decode")); [listed|by vm_compute|done].
    + apply elem_of_list_singleton in Hw as ->.
      eapply (HS (str "control:") (str " payload is None")); [listed|by vm_compute|done].
Qed.

Lemma shown_token a2b b s s' urls ws w : (tokenize_part a2b (PBytes b)).2 = None -> Forall2 lower_of b s -> left_over s s' urls ->
  words s' ws -> w ∈ ws -> 3 <= length w <= 12 -> WBytes w ∈ (tokenize_part a2b (PBytes b)).1.
Proof.
  intros Hn H1 H2 H3 Hw Hl. destruct (part_outcome a2b (PBytes b)) as [(ts&Et&Hp&_)|[Et _]]; [|congruence]. rewrite Et. cbn [fst].
  destruct Hp as (t&t'&urls'&vs&clues&tss&wss&K1&K2&K3&_&_&K6&->).
  apply lower_unique in H1 as ->. apply lower_unique in K1 as ->.
  destruct (left_over_det _ _ _ _ _ H2 K2) as [-> _]. apply words_unique in H3 as ->. apply words_unique in K3 as ->.
  rewrite !elem_of_app. right. right. apply elem_of_list_lookup in Hw as [i Hi].
  destruct (Forall2_lookup_l _ _ _ _ _ K6 Hi) as (us&Hu&Ht). apply elem_of_list_join. exists us.
  split; [|by eapply elem_of_list_lookup_2]. destruct Ht as [[? _]|[[_ ->]|[? _]]]; [lia|left|lia].
Qed.

Section messages.
  Context (U : unicode) (E : mailpkg) (o : topts) (a2b : codes -> res codes) (order : list part -> list part).
  Context (Ho : parts_order_ok order).
  Notation toks := (tokenize_message U E order o a2b).

  (** The header tokens of a message, as texts *)
  Definition head_word (m : part) (w : pyword) : Prop :=
    (exists p, inside p m /\ w ∈ (crack_content_xyz U (part_info p)).1) \/
    (exists pc, pc ∈ pieces U E o [] (part_headers m) /\ w ∈ pc.2.1).

  Lemma message_mem m : (toks m).2 = None -> forall v, v ∈ (toks m).1 <->
    exists w b, (head_word m w \/ exists t, text_inside t m /\ w ∈ (tokenize_part a2b t).1) /\ enc w = Ok b /\ v = WBytes b.
  Proof.
    unfold tokenize_message. destruct (call_mem U E o a2b (part_info <$> walk m) (part_headers m) (part_payload <$> textparts order m)) as [C1 C2].
    intros Hn v. rewrite (C2 Hn). destruct (proj1 C1 Hn) as (_&Hh&_).
    assert (forall w, ((exists x, x ∈ part_info <$> walk m /\ w ∈ (crack_content_xyz U x).1) \/ w ∈ (tokenize_headers U E o [] (part_headers m)).1 \/
      exists t, t ∈ part_payload <$> textparts order m /\ w ∈ (tokenize_part a2b t).1) <->
      (head_word m w \/ exists t, text_inside t m /\ w ∈ (tokenize_part a2b t).1)) as Hs.
    { intros w. rewrite (headers_pieces U E o [] _ Hh). unfold head_word, text_inside.
      setoid_rewrite infos_in. setoid_rewrite (fun t => textparts_in order m t Ho). setoid_rewrite <- is_text_spec. naive_solver. }
    by setoid_rewrite Hs.
  Qed.

  Lemma message_texts m t : (toks m).2 = None -> text_inside t m -> (tokenize_part a2b t).2 = None.
  Proof.
    unfold tokenize_message. destruct (call_mem U E o a2b (part_info <$> walk m) (part_headers m) (part_payload <$> textparts order m)) as [C1 _].
    intros Hn (p&Hp&Ht&<-). apply (proj1 C1 Hn). apply (textparts_in order m _ Ho). exists p. by rewrite is_text_spec.
  Qed.
  Lemma message_parts m p : (toks m).2 = None -> inside p m -> (crack_content_xyz U (part_info p)).2 = None.
  Proof.
    unfold tokenize_message. destruct (call_mem U E o a2b (part_info <$> walk m) (part_headers m) (part_payload <$> textparts order m)) as [C1 _].
    intros Hn Hp. apply (proj1 C1 Hn). apply infos_in. by exists p.
  Qed.

  Lemma in_names l : l ∈ names -> exists og, (l, og) ∈ labels.
  Proof. intros ([l' og]&->&H)%elem_of_list_fmap. by exists og. Qed.

  Lemma pieces_names m : Forall (fun pc : list codes * gen => forall l, l ∈ pc.1 -> l ∈ names) (pieces U E o [] (part_headers m)).
  Proof.
    unfold pieces. repeat apply Forall_cons_2; [..|constructor]; cbn [fst]; apply Forall_forall; listed.
  Qed.

  Lemma head_labelled m w : head_word m w -> exists l og s, (l, og) ∈ labels /\ w = WStr (l ++ s).
  Proof.
    intros [(p&_&Hw)|(pc&Hpc&Hw)].
    - apply crack_marks in Hw as (l&s&Hl&->).
      assert (l ∈ names) as Hi by (revert l Hl; apply Forall_forall; listed).
      apply in_names in Hi as [og Hi]. by exists l, og, s.
    - pose proof (pieces_marks U E o [] (part_headers m)) as HM. rewrite Forall_forall in HM. apply (HM pc Hpc) in Hw as (l&s&Hl&->).
      pose proof (pieces_names m) as HN. rewrite Forall_forall in HN. apply (HN pc Hpc), in_names in Hl as [og Hl]. by exists l, og, s.
  Qed.

  Lemma head_labelled_bytes m w v : head_word m w -> enc w = Ok v -> labelled (WBytes v).
  Proof.
    intros (l&og&s&Hl&->)%head_labelled Hv. cbn [enc] in Hv. destruct (utf8_ascii _ _ _ (names_ascii _ _ Hl) Hv) as [s' ->]. by exists l, og, s'.
  Qed.

  Lemma hget_all_agree h h' name : lower name = name -> (forall vs, values name h vs <-> values name h' vs) -> hget_all h name = hget_all h' name.
  Proof.
    intros Hl H. destruct (values_exist name h) as [vs Hv]. rewrite (hget_all_values _ _ _ Hl Hv). apply H in Hv.
    by rewrite (hget_all_values _ _ _ Hl Hv).
  Qed.
  Lemma hget_default_agree h h' name d : lower name = name -> (forall vs, values name h vs <-> values name h' vs) ->
    hget_default h name d = hget_default h' name d.
  Proof. intros Hl H. rewrite !SeenProofs.hget_default_all. by rewrite (hget_all_agree h h' name). Qed.

  Lemma origin_is (ls : list codes) og0 l og : (l, og) ∈ labels -> l ∈ ls -> Forall (fun lo : codes * origin => lo.1 ∈ ls -> lo.2 = og0) labels -> og = og0.
  Proof. intros H Hl HF. rewrite Forall_forall in HF. by apply (HF _ H). Qed.

  Lemma pieces_agree m m' l og : (l, og) ∈ labels -> agree_on og m m' ->
    Forall2 (fun pc pc' : list codes * gen => pc.1 = pc'.1 /\ (l ∈ pc.1 -> pc.2 = pc'.2))
      (pieces U E o [] (part_headers m)) (pieces U E o [] (part_headers m')).
  Proof.
    intros Hl Ha. unfold pieces. set (h := part_headers m). set (h' := part_headers m').
    assert (forall (ls : list codes), l ∈ ls -> forall ns, Forall (fun lo : codes * origin => lo.1 ∈ ls -> lo.2 = OValues ns) labels ->
      Forall (fun n => lower n = n) ns ->
      forall n, n ∈ ns -> hget_all h n = hget_all h' n /\ forall d, hget_default h n d = hget_default h' n d) as HV.
    { intros ls Hin ns HF HN n Hn. pose proof (origin_is ls _ l og Hl Hin HF) as ->. cbn [agree_on] in Ha.
      rewrite Forall_forall in HN. specialize (HN n Hn).
      split; [apply hget_all_agree|intros d; apply hget_default_agree]; try done; intros vs; by apply Ha. }
    repeat apply Forall2_cons_2; [..|constructor]; (split; [done|cbn [fst snd]; intros Hin]); [done|..].
    - destruct (HV _ Hin [str "subject"] ltac:(listed) ltac:(listed) (str "subject") ltac:(left)) as [_ Hd].
      unfold subject_tokens. by rewrite Hd.
    - destruct (HV _ Hin [str "from"] ltac:(listed) ltac:(listed) (str "from") ltac:(left)) as [Hd _]. unfold field_tokens. by rewrite Hd.
    - destruct (HV _ Hin [str "to"] ltac:(listed) ltac:(listed) (str "to") ltac:(left)) as [Hd _]. unfold field_tokens. by rewrite Hd.
    - destruct (HV _ Hin [str "cc"] ltac:(listed) ltac:(listed) (str "cc") ltac:(left)) as [Hd _]. unfold field_tokens. by rewrite Hd.
    - destruct (HV _ Hin [str "sender"] ltac:(listed) ltac:(listed) (str "sender") ltac:(left)) as [Hd _]. unfold field_tokens. by rewrite Hd.
    - destruct (HV _ Hin [str "reply-to"] ltac:(listed) ltac:(listed) (str "reply-to") ltac:(left)) as [Hd _]. unfold field_tokens. by rewrite Hd.
    - destruct (HV _ Hin [str "to"; str "cc"] ltac:(listed) ltac:(listed) (str "to") ltac:(left)) as [Hd _].
      destruct (HV _ Hin [str "to"; str "cc"] ltac:(listed) ltac:(listed) (str "cc") ltac:(right; left)) as [Hd' _].
      unfold summary_tokens. by rewrite Hd, Hd'.
    - destruct (HV _ Hin [str "to"] ltac:(listed) ltac:(listed) (str "to") ltac:(left)) as [Hd _]. unfold recipient_tokens. by rewrite Hd.
    - destruct (HV _ Hin [str "cc"] ltac:(listed) ltac:(listed) (str "cc") ltac:(left)) as [Hd _]. unfold recipient_tokens. by rewrite Hd.
    - destruct (HV _ Hin [str "x-mailer"] ltac:(listed) ltac:(listed) (str "x-mailer") ltac:(left)) as [_ Hd]. unfold mailer_tokens. by rewrite Hd.
    - destruct (HV _ Hin [str "received"] ltac:(listed) ltac:(listed) (str "received") ltac:(left)) as [Hd _]. by rewrite Hd.
    - destruct (HV _ Hin [str "message-id"] ltac:(listed) ltac:(listed) (str "message-id") ltac:(left)) as [_ Hd]. unfold message_id_tokens. by rewrite Hd.
    - assert (og = ONames) as -> by (eapply origin_is; [done|exact Hin|listed]). cbn [agree_on] in Ha. unfold count_tokens.
      fold h h' in Ha. by rewrite Ha.
  Qed.

  Lemma head_agree m m' l og s : (l, og) ∈ labels -> agree_on og m m' -> head_word m (WStr (l ++ s)) -> head_word m' (WStr (l ++ s)).
  Proof.
    intros Hl Ha [(p&Hp&Hw)|(pc&Hpc&Hw)].
    - pose proof Hw as Hm. apply crack_marks in Hm as (l'&s'&Hl'&[= E']).
      assert (l' ∈ names) as Hi by (revert l' Hl' E'; intros l' Hl' _; revert l' Hl'; apply Forall_forall; listed).
      apply in_names in Hi as [og' Hi]. destruct (labels_apart _ _ _ _ _ _ Hl Hi E') as [<- _].
      assert (og = OParts) as -> by (eapply origin_is; [exact Hl|exact Hl'|listed]).
      cbn [agree_on] in Ha. destruct (proj1 (Ha (part_info p))) as (p'&Hp'&Ep); [by exists p|]. left. exists p'. by rewrite Ep.
    - pose proof (pieces_marks U E o [] (part_headers m)) as HM. rewrite Forall_forall in HM.
      pose proof (HM pc Hpc _ Hw) as (l'&s'&Hl'&[= E']).
      pose proof (pieces_names m) as HN. rewrite Forall_forall in HN. destruct (in_names _ (HN pc Hpc _ Hl')) as [og' Hi].
      destruct (labels_apart _ _ _ _ _ _ Hl Hi E') as [<- _].
      apply elem_of_list_lookup in Hpc as [i Hi']. destruct (Forall2_lookup_l _ _ _ _ _ (pieces_agree m m' l og Hl Ha) Hi') as (pc'&Hpc'&_&He).
      right. exists pc'. split; [by eapply elem_of_list_lookup_2|]. exact (eq_ind _ (fun x => WStr (l ++ s) ∈ x) Hw _ (f_equal fst (He Hl'))).
  Qed.

  Lemma agree_sym og m m' : agree_on og m m' -> agree_on og m' m.
  Proof. destruct og; cbn; [intros H x; by rewrite H|intros H n vs Hn; by rewrite H|done]. Qed.


  Lemma header_tokens_dir m m' l og s : (toks m).2 = None -> (toks m').2 = None -> honest m -> (l, og) ∈ labels -> agree_on og m m' ->
    WBytes (l ++ s) ∈ (toks m).1 -> WBytes (l ++ s) ∈ (toks m').1.
  Proof.
    intros Hn Hn' Hh Hl Ha. rewrite (message_mem m Hn), (message_mem m' Hn'). intros (w&b&Hw&Hb&[= <-]).
    destruct Hw as [Hw|(t&Ht&Hw)].
    - exists w, (l ++ s). split_and!; [|done..]. left. destruct (head_labelled m w Hw) as (l'&og'&s'&Hl'&->).
      cbn [enc] in Hb. destruct (utf8_ascii _ _ _ (names_ascii _ _ Hl') Hb) as [s'' E']. destruct (labels_apart _ _ _ _ _ _ Hl Hl' E') as [<- _].
      by apply (head_agree m m' l og).
    - destruct (text_tokens a2b t w _ (message_texts m t Hn Ht) Hw Hb) as [Hf|(b&x&x'&urls&ws&->&H1&H2&H3&H4&H5)].
      + destruct Hf. by exists l, og, s.
      + destruct (Hh (l ++ s)); [by exists b, x, x', urls, ws|done|by exists l, og, s].
  Qed.

  Lemma header_tokens_same m m' l og s : (toks m).2 = None -> (toks m').2 = None -> honest m -> honest m' -> (l, og) ∈ labels -> agree_on og m m' ->
    WBytes (l ++ s) ∈ (toks m).1 <-> WBytes (l ++ s) ∈ (toks m').1.
  Proof.
    intros Hn Hn' Hh Hh' Hl Ha. split; eapply header_tokens_dir; try done. by apply agree_sym.
  Qed.

  Lemma body_tokens_same m m' v : (toks m).2 = None -> (toks m').2 = None -> same_texts m m' -> ~ labelled v ->
    v ∈ (toks m).1 <-> v ∈ (toks m').1.
  Proof.
    intros Hn Hn' Ht Hv. rewrite (message_mem m Hn), (message_mem m' Hn').
    split; intros (w&b&[Hw|(t&Hi&Hw)]&Hb&->); try (by destruct Hv; eapply head_labelled_bytes);
      (exists w, b; split_and!; [right; exists t; split; [by apply Ht|done]|done..]).
  Qed.

  Lemma shown_words_are_tokens m w : (toks m).2 = None -> shows_word m w -> 3 <= length w <= 12 -> WBytes w ∈ (toks m).1.
  Proof.
    intros Hn (b&t&t'&urls&ws&Hi&H1&H2&H3&H4) Hl. apply (message_mem m Hn). exists (WBytes w), w. split_and!; [|done..]. right.
    exists (PBytes b). split; [done|]. eapply shown_token; try done. by apply (message_texts m).
  Qed.
End messages.

(** ** Texts without colons *)
Lemma stripped_chars Sb Se x s kept ws : stripped Sb Se x s kept ws -> forall c, c ∈ kept -> c ∈ s.
Proof.
  induction 1 as [| |x s k w y k' e z kept ws Hl1 Hl2 Hs IH]; [done..|].
  intros c. destruct Hl1 as (->&_). destruct Hl2 as (->&_). rewrite !elem_of_app. intros [Hc|Hc]; [by left|]. right. right. right. right. by apply IH.
Qed.

Lemma left_over_chars t t' urls : left_over t t' urls -> forall c, c ∈ t' -> c ∈ t.
Proof.
  intros (t1&t2&t3&s2&s3&s4&H1&H2&H3&H4) c Hc. eapply stripped_chars in Hc; [|exact H4]. eapply stripped_chars in Hc; [|exact H3].
  eapply stripped_chars in Hc; [|exact H2]. by eapply stripped_chars in Hc; [|exact H1].
Qed.

Lemma words_chars t ws w : words t ws -> w ∈ ws -> forall c, c ∈ w -> c ∈ t.
Proof.
  induction 1 as [|c0 t ws _ Hw IH|v t ws _ _ _ Hw IH]; intros Hin c Hc; [by apply elem_of_nil in Hin|right; by apply IH|].
  apply elem_of_app. apply elem_of_cons in Hin as [->|Hin]; [by left|right; by apply IH].
Qed.

Lemma colon_in l og : (l, og) ∈ labels -> 58%N ∈ l.
Proof.
  intros H. assert (Forall (fun l => 58%N ∈ l) names) as Ha by listed. rewrite Forall_forall in Ha. apply Ha.
  apply elem_of_list_fmap. by exists (l, og).
Qed.

Lemma no_colon_honest m : (forall b, text_inside (PBytes b) m -> 58%N ∉ b) -> honest m.
Proof.
  intros H w (b&t&t'&urls&ws&Hi&H1&H2&H3&H4) _ (l&og&s&Hl&[= ->]). apply (H b Hi).
  assert (58%N ∈ t) as Ht. { eapply left_over_chars; [exact H2|]. eapply words_chars; [exact H3|exact H4|]. apply elem_of_app. left. by eapply colon_in. }
  apply elem_of_list_lookup in Ht as [i Ht]. destruct (Forall2_lookup_r _ _ _ _ _ H1 Ht) as (c&Hc&[[? ?]|[? ->]]); [lia|].
  by eapply elem_of_list_lookup_2.
Qed.

(** ** Scores of some words only *)
Lemma rmap_ext_in {X Y} (f g : X -> res Y) l : (forall x, x ∈ l -> f x = g x) -> rmap f l = rmap g l.
Proof.
  intros H. induction l as [|x l IH]; [done|]. simpl. rewrite H by left. rewrite IH; [done|]. intros y Hy. apply H. by right.
Qed.

Lemma rev_is_reverse {X} (l : list X) : rev l = reverse l.
Proof. apply rev_alt. Qed.

Section local.
  Context {A : num} (it : set_order) (Hit : set_order_ok it).
  Notation mobj := (obj A (gmap pyword winfo)).

  Lemma score_local s (o1 o2 : mobj) : mgood o1 -> mgood o2 -> o_bigrams o1 = Some false -> o_bigrams o2 = Some false ->
    o_nspam o1 = o_nspam o2 -> o_nham o1 = o_nham o2 -> (forall w, w ∈ elems s -> o_store o1 !! w = o_store o2 !! w) ->
    (spamprob_evidence mem_backend it s o1).2 = (spamprob_evidence mem_backend it s o2).2.
  Proof.
    intros G1 G2 B1 B2 Es Eh Ew. destruct (mem_score it s o1 G1) as (o1'&->&_). destruct (mem_score it s o2 G2) as (o2'&->&_). cbn [snd].
    rewrite B1, B2, Es, Eh. unfold pscore_evidence. cbn [pclues]. unfold pclues_uni.
    rewrite (rmap_ext_in (word_clue (mlook (o_store o1)) (o_nspam o2) (o_nham o2)) (word_clue (mlook (o_store o2)) (o_nspam o2) (o_nham o2))); [done|].
    intros w Hw. apply prob_ext. apply Ew. by apply (proj2 (Hit (elems s))).
  Qed.

  Context (U : unicode) (E : mailpkg) (o : topts) (a2b : codes -> res codes) (order : list part -> list part).
  Notation toks := (tokenize_message U E order o a2b).

  Lemma learned_alike (l l' : list (part * bool)) ws :
    (forall mb, mb ∈ l -> (toks mb.1).2 = None) -> (forall mb, mb ∈ l' -> (toks mb.1).2 = None) ->
    Forall2 (fun x y => x.2 = y.2 /\ forall w, w ∈ ws -> w ∈ (toks x.1).1 <-> w ∈ (toks y.1).1) l l' ->
    (spamprob_evidence mem_backend it (SIter ws) (learn_all U E o a2b it order l (c_new false ∅ : mobj))).2 =
    (spamprob_evidence mem_backend it (SIter ws) (learn_all U E o a2b it order l' (c_new false ∅ : mobj))).2.
  Proof.
    intros Hl Hl' HF. rewrite !learn_all_run by done.
    pose proof (matched_refines (A:=A) it Hit false _ _ (calls_matched U E o a2b order l)) as H1.
    pose proof (matched_refines (A:=A) it Hit false _ _ (calls_matched U E o a2b order l')) as H2.
    pose proof (reachable_good (A:=A) it Hit false (calls U E o a2b order l)) as G1.
    pose proof (reachable_good (A:=A) it Hit false (calls U E o a2b order l')) as G2.
    destruct (run mem_backend it (calls U E o a2b order l) _) as [o1 r1]. destruct (run mem_backend it (calls U E o a2b order l') _) as [o2 r2].
    cbn [fst] in *. destruct H1 as [(B1&S1&N1&W1) _]. destruct H2 as [(B2&S2&N2&W2) _].
    apply Forall2_reverse in HF.
    assert (forall b, total b (msgs U E o a2b order l) = total b (msgs U E o a2b order l')) as Et.
    { intros b. unfold msgs. rewrite !rev_is_reverse. induction HF as [|x y r r' [Hxy _] _ IH]; [done|]. cbn [fmap list_fmap total]. by rewrite IH, Hxy. }
    assert (forall b w, w ∈ ws -> containing b w (msgs U E o a2b order l) = containing b w (msgs U E o a2b order l')) as Ec.
    { intros b w Hw. unfold msgs. rewrite !rev_is_reverse. induction HF as [|x y r r' [Hxy Hin] _ IH]; [done|]. cbn [fmap list_fmap containing].
      rewrite IH, Hxy. by rewrite (bool_decide_ext _ _ (Hin w Hw)). }
    apply score_local; try done; [by rewrite S1, S2|by rewrite N1, N2|].
    intros w Hw. rewrite W1, W2. unfold expected_record. by rewrite !Ec.
  Qed.

  Context (Ho : parts_order_ok order).

  Lemma learned_headers (l l' : list (part * bool)) ws :
    (forall mb, mb ∈ l -> (toks mb.1).2 = None /\ honest mb.1) -> (forall mb, mb ∈ l' -> (toks mb.1).2 = None /\ honest mb.1) ->
    (forall w, w ∈ ws -> exists lb og s, (lb, og) ∈ labels /\ w = WBytes (lb ++ s) /\ Forall2 (fun x y => x.2 = y.2 /\ agree_on og x.1 y.1) l l') ->
    Forall2 (fun x y => x.2 = y.2) l l' ->
    (spamprob_evidence mem_backend it (SIter ws) (learn_all U E o a2b it order l (c_new false ∅ : mobj))).2 =
    (spamprob_evidence mem_backend it (SIter ws) (learn_all U E o a2b it order l' (c_new false ∅ : mobj))).2.
  Proof.
    intros Hl Hl' Hw HF. apply learned_alike; [intros mb Hm; by apply Hl|intros mb Hm; by apply Hl'|].
    apply Forall2_same_length_lookup. split; [by eapply Forall2_length|]. intros i x y Hx Hy. split; [by eapply Forall2_lookup_lr in HF|].
    intros w Hin. destruct (Hw w Hin) as (lb&og&s&Hlb&->&HA). destruct (Forall2_lookup_lr _ _ _ _ _ _ HA Hx Hy) as [_ Hag].
    destruct (Hl x) as [T1 K1]; [by eapply elem_of_list_lookup_2|]. destruct (Hl' y) as [T2 K2]; [by eapply elem_of_list_lookup_2|].
    by apply (header_tokens_same U E o a2b order Ho _ _ _ og).
  Qed.

  Lemma learned_bodies (l l' : list (part * bool)) ws :
    (forall mb, mb ∈ l -> (toks mb.1).2 = None) -> (forall mb, mb ∈ l' -> (toks mb.1).2 = None) ->
    (forall w, w ∈ ws -> ~ labelled w) -> Forall2 (fun x y => x.2 = y.2 /\ same_texts x.1 y.1) l l' ->
    (spamprob_evidence mem_backend it (SIter ws) (learn_all U E o a2b it order l (c_new false ∅ : mobj))).2 =
    (spamprob_evidence mem_backend it (SIter ws) (learn_all U E o a2b it order l' (c_new false ∅ : mobj))).2.
  Proof.
    intros Hl Hl' Hw HF. apply learned_alike; [done..|].
    apply Forall2_same_length_lookup. split; [by eapply Forall2_length|]. intros i x y Hx Hy.
    destruct (Forall2_lookup_lr _ _ _ _ _ _ HF Hx Hy) as [? ?]. split; [done|].
    intros w Hin. apply (body_tokens_same U E o a2b order Ho); [by eapply Hl, elem_of_list_lookup_2|by eapply Hl', elem_of_list_lookup_2|done|by apply Hw].
  Qed.
End local.
