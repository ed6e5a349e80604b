(** * Messages and the database-backed classifier (C114) *)
From Coq Require Import String.
From Verif Require Import Py NumModel CdbModel ClassifierModel TrainSpec TrainProofs StripModel RaiseModel RaiseProofs ShelveModel ShelveSpec
  TokenModel TokenProofs MessageModel HeadModel HeadProofs HeadCallProofs TreeModel TreeSpec TreeProofs SeenProofs SidedProofs MailboxSpec.

(** Tokenizing a message that does not raise gives words, all of them bytes. *)
Lemma message_bytes U E order o a2b m ws : tokenize_message U E order o a2b m = (ws, None) ->
  ws <> [] /\ forall w, w ∈ ws -> exists b, w = WBytes b.
Proof.
  intros H. split.
  - destruct (call_two_words _ _ _ _ _ _ _ _ H) as (w&_&Hw&_). destruct ws; [by apply elem_of_nil in Hw|done].
  - unfold tokenize_message, tokenizer_call in H. destruct (gapp _ _) as [ts e]. apply convert_bytes in H. by rewrite Forall_forall in H.
Qed.

Section mailbox.
  Context (U : unicode) (E : mailpkg) (o : topts) (a2b : codes -> res codes) (it : set_order) (Hit : set_order_ok it)
    (order : list part -> list part).
  Context {A : num}.
  Notation sobj := (obj A sstore).
  Notation toks := (tokenize_message U E order o a2b).

  Record untouched (d : database) (ob : sobj) : Prop := Untouched {
    u_bg : o_bigrams ob = Some false;
    u_mem : s_mem (o_store ob) = ∅;
    u_changed : s_changed (o_store ob) = ∅;
    u_deleted : s_deleted (o_store ob) = ∅;
    u_state : match s_db (o_store ob) !! STATE_KEY with None => True | Some (DState v _ _) => v = PICKLE_VERSION | Some (DWord _) => False end;
    u_db : forall k, k <> STATE_KEY -> s_db (o_store ob) !! k = d !! k }.

  Lemma bytes_get d (ob : sobj) b : untouched d ob -> shelve_get (WBytes b) (o_store ob) = (o_store ob, Err AttributeError).
  Proof.
    intros H. unfold shelve_get. rewrite (u_mem d ob H), lookup_empty, (u_deleted d ob H).
    destruct (decide _) as [Hd|_]; [by apply elem_of_empty in Hd|done].
  Qed.

  Lemma some_word (ws : list pyword) : ws <> [] -> (forall w, w ∈ ws -> exists b, w = WBytes b) -> exists b l, it ws = WBytes b :: l.
  Proof.
    intros Hne Hw. destruct (it ws) as [|x l] eqn:Ei.
    - destruct ws as [|x l]; [done|]. exfalso. assert (x ∈ it (x :: l)) as Hx by (apply (proj2 (Hit _)); left).
      rewrite Ei in Hx. by apply elem_of_nil in Hx.
    - destruct (Hw x) as [b ->]; [apply (proj2 (Hit _)); rewrite Ei; left|]. by exists b, l.
  Qed.

  Lemma same_untouched d (ob ob' : sobj) : untouched d ob -> o_bigrams ob' = o_bigrams ob -> o_store ob' = o_store ob -> untouched d ob'.
  Proof. intros [] E1 E2. constructor; rewrite ?E1, ?E2; done. Qed.

  Lemma mail_train d (ob : sobj) m b : untouched d ob -> exists ob' e,
    learn_gen shelve_backend it (toks m) b ob = (ob', Err e) /\ untouched d ob' /\
    total_of b ob' = (total_of b ob + 1)%Z /\ total_of (negb b) ob' = total_of (negb b) ob.
  Proof.
    intros H. unfold learn_gen. rewrite (u_bg d ob H). unfold add_gen. destruct (toks m) as [ws [e|]] eqn:Et.
    - eexists _, e. split; [reflexivity|]. split; [|by destruct b]. apply (same_untouched d ob); [done|by destruct b..].
    - destruct (message_bytes _ _ _ _ _ _ _ Et) as [Hne Hw]. destruct (some_word ws Hne Hw) as (c&l&Ei).
      unfold add_msg, on_store. set (ob1 := if b then _ else _).
      assert (o_store ob1 = o_store ob) as Es by by destruct b. assert (o_bigrams ob1 = o_bigrams ob) as Eb by by destruct b.
      rewrite Es, Ei. unfold mbind. cbn [mfor]. unfold mbind, add_word at 1, mbind. cbn [bk_get shelve_backend].
      rewrite (bytes_get d) by done. eexists _, _. split; [reflexivity|]. split; [|by destruct b].
      apply (same_untouched d ob); [done|by destruct b|done].
  Qed.

  Lemma mail_untrain d (ob : sobj) m b : untouched d ob -> exists ob' e,
    unlearn_gen shelve_backend it (toks m) b ob = (ob', Err e) /\ untouched d ob'.
  Proof.
    intros H. unfold unlearn_gen. rewrite (u_bg d ob H). unfold remove_gen. destruct (toks m) as [ws [e|]] eqn:Et.
    - cbv zeta. destruct (_ <=? 0)%Z; eexists _, _; (split; [reflexivity|]); apply (same_untouched d ob); try done; by destruct b.
    - destruct (message_bytes _ _ _ _ _ _ _ Et) as [Hne Hw]. destruct (some_word ws Hne Hw) as (c&l&Ei).
      unfold remove_msg. cbv zeta. destruct (_ <=? 0)%Z.
      { eexists _, _. split; [reflexivity|]. by apply (same_untouched d ob). }
      unfold on_store. set (ob1 := if b then _ else _).
      assert (o_store ob1 = o_store ob) as Es by by destruct b. assert (o_bigrams ob1 = o_bigrams ob) as Eb by by destruct b.
      rewrite Es, Ei. unfold mbind. cbn [mfor]. unfold mbind, remove_word at 1, mbind. cbn [bk_get shelve_backend].
      rewrite (bytes_get d) by done. eexists _, _. split; [reflexivity|].
      apply (same_untouched d ob); [done|by destruct b|done].
  Qed.

  Lemma mail_score d (ob : sobj) m : untouched d ob -> exists ob' e,
    score_gen shelve_backend it (toks m) ob = (ob', Err e) /\ untouched d ob'.
  Proof.
    intros H. unfold score_gen. destruct (toks m) as [ws [e|]] eqn:Et.
    - by eexists _, _.
    - destruct (message_bytes _ _ _ _ _ _ _ Et) as [Hne Hw]. destruct (some_word ws Hne Hw) as (c&l&Ei).
      unfold spamprob_evidence, mbind, getclues. rewrite (u_bg d ob H). unfold getclues_uni, mbind. cbn [elems].
      rewrite Ei. cbn [mmap]. unfold mbind, worddistanceget at 1, mbind, on_store. cbn [bk_get shelve_backend].
      rewrite (bytes_get d) by done. eexists _, _. split; [reflexivity|]. by apply (same_untouched d ob).
  Qed.

  Lemma mail_store d (ob : sobj) : untouched d ob -> exists ob', shelve_store it ob = (ob', Ok tt) /\ untouched d ob' /\
    o_nspam ob' = o_nspam ob /\ o_nham ob' = o_nham ob /\
    s_db (o_store ob') !! STATE_KEY = Some (DState PICKLE_VERSION (o_nspam ob) (o_nham ob)).
  Proof.
    intros H. unfold shelve_store, on_store, mbind. rewrite (u_changed d ob H), elements_empty.
    assert (it [] = []) as Ei.
    { destruct (it []) as [|x l] eqn:Ei; [done|]. assert (x ∈ []) as Hx by (apply (proj2 (Hit _)); rewrite Ei; left).
      by apply elem_of_nil in Hx. }
    rewrite Ei. cbn [mfor mret]. unfold mret. rewrite (u_deleted d ob H), elements_empty, Ei. cbn [mfor]. unfold mret.
    unfold write_state_key, db_write. cbn [s_db s_mem s_changed s_deleted s_log db_apply]. eexists. split; [reflexivity|].
    split_and!; [|done|done|cbn [with_store o_store s_db]; by rewrite lookup_insert].
    constructor; cbn [with_store o_store o_bigrams s_db s_mem s_changed s_deleted]; try done.
    - apply H. - apply H. - by rewrite lookup_insert.
    - intros k Hk. rewrite lookup_insert_ne by done. by apply (u_db d ob H).
  Qed.

  Lemma mail_load d (ob ob0 : sobj) : untouched d ob -> o_bigrams ob0 = Some false ->
    exists ob', shelve_load (s_db (o_store ob)) ob0 = (ob', Ok tt) /\ untouched d ob' /\
    match s_db (o_store ob) !! STATE_KEY with
    | Some (DState _ s h) => o_nspam ob' = s /\ o_nham ob' = h
    | _ => o_nspam ob' = 0%Z /\ o_nham ob' = 0%Z
    end.
  Proof.
    intros H Hb. unfold shelve_load. pose proof (u_state d ob H) as Hs.
    destruct (s_db (o_store ob) !! STATE_KEY) as [[r|v s h]|] eqn:Ek; [done|..].
    - subst v. rewrite Z.eqb_refl. eexists. split; [reflexivity|]. split; [|done].
      constructor; cbn [with_store with_counts o_store o_bigrams s_db s_mem s_changed s_deleted]; try done; [by rewrite Ek|apply H].
    - eexists. split; [reflexivity|]. split; [|done].
      constructor; cbn [with_store with_counts o_store o_bigrams s_db s_mem s_changed s_deleted]; try done; [by rewrite Ek|apply H].
  Qed.

  Lemma open_untouched d (ob : sobj) : shelve_open d = (ob, Ok tt) -> untouched d ob.
  Proof.
    unfold shelve_open, shelve_load. destruct (d !! STATE_KEY) as [[r|v s h]|] eqn:Ek; [done|..].
    - destruct (v =? PICKLE_VERSION)%Z eqn:Ev; [|done]. intros [= <-]. constructor; try done.
      cbn [with_store with_counts c_new o_store s_db]. rewrite Ek. by apply Z.eqb_eq.
    - intros [= <-]. constructor; try done. cbn [with_store with_counts c_new o_store s_db]. by rewrite Ek.
  Qed.

  Notation run_mop := (run_mop U E o a2b it order).
  Notation run_mops := (run_mops U E o a2b it order).

  Lemma mail_op d x (ob : sobj) : untouched d ob -> exists ob' r, run_mop x ob = (ob', r) /\ untouched d ob' /\
    is_ok r = negb (reads_message x).
  Proof.
    intros H. destruct x as [m b|m b|m| | |]; cbn [MailboxSpec.run_mop reads_message].
    - destruct (mail_train d ob m b H) as (ob'&e&->&?&_). by eexists _, _.
    - destruct (mail_untrain d ob m b H) as (ob'&e&->&?). by eexists _, _.
    - destruct (mail_score d ob m H) as (ob'&e&->&?). by eexists _, _.
    - destruct (mail_store d ob H) as (ob'&->&?&_). by eexists _, _.
    - destruct (mail_load d ob ob H (u_bg d ob H)) as (ob'&->&?&_). by eexists _, _.
    - unfold shelve_open. destruct (mail_load d ob (c_new false (SStore (s_db (o_store ob)) ∅ ∅ ∅ [])) H eq_refl) as (ob'&->&?&_).
      by eexists _, _.
  Qed.

  Lemma mail_ops d xs (ob : sobj) : untouched d ob -> exists ob' rs, run_mops xs ob = (ob', rs) /\ untouched d ob' /\
    Forall2 (fun x r => is_ok r = negb (reads_message x)) xs rs.
  Proof.
    revert ob. induction xs as [|x xs IH]; intros ob H.
    - eexists _, _. split; [reflexivity|]. by split; [|constructor].
    - cbn [MailboxSpec.run_mops]. destruct (mail_op d x ob H) as (ob1&r&->&H1&Hr). destruct (IH ob1 H1) as (ob2&rs&->&H2&Hrs).
      eexists _, _. split; [reflexivity|]. split; [done|]. by constructor.
  Qed.

  Lemma mail_nothing_learned d xs (ob0 : sobj) : shelve_open d = (ob0, Ok tt) ->
    let '(ob, rs) := run_mops xs ob0 in
    Forall2 (fun x r => is_ok r = negb (reads_message x)) xs rs /\
    forall k, k <> str "saved state" -> s_db (o_store ob) !! k = d !! k.
  Proof.
    intros H%open_untouched. destruct (mail_ops d xs ob0 H) as (ob&rs&->&Hu&Hrs). split; [done|]. apply Hu.
  Qed.

  Lemma mail_totals_grow d xs (ob0 : sobj) m b : shelve_open d = (ob0, Ok tt) ->
    let ob := (run_mops xs ob0).1 in
    let ob' := (run_mops [MTrain m b; MStore; MReopen] ob).1 in
    total_of b ob' = (total_of b ob + 1)%Z /\ total_of (negb b) ob' = total_of (negb b) ob.
  Proof.
    intros H%open_untouched. destruct (mail_ops d xs ob0 H) as (ob&rs&->&Hu&_). cbn [fst MailboxSpec.run_mops MailboxSpec.run_mop].
    destruct (mail_train d ob m b Hu) as (ob1&e&->&H1&T1&T2). destruct (mail_store d ob1 H1) as (ob2&->&H2&N1&N2&Ek).
    unfold shelve_open. destruct (mail_load d ob2 (c_new false (SStore (s_db (o_store ob2)) ∅ ∅ ∅ [])) H2 eq_refl) as (ob3&->&_&Hn).
    rewrite Ek in Hn. destruct Hn as [E1 E2]. cbn [fst]. rewrite <- T1, <- T2. destruct b; simpl; rewrite ?E1, ?E2; done.
  Qed.
End mailbox.
