(** * Words with surrogates in the database-backed classifier (C27), a missing
    file of the cdb-backed classifier (C32) *)
From Coq Require Import String Lia.
From Verif Require Import Py NumModel ClassifierModel TrainSpec TrainProofs ScoreProofs
  ShelveModel ShelveSpec ShelveProofs ShelveRunProofs ShelveCrashProofs ShelveApiProofs RealModel CdbClassModel.

Definition torn (w : pyword) : Prop := exists s c, w = WStr s /\ c ∈ s /\ (55296 <= c <= 57343)%N.

Lemma torn_not_plain w : torn w -> ~ plain w.
Proof.
  intros (s & c & -> & Hc & Hs) (s' & E & Hf & _). injection E as <-. rewrite Forall_forall in Hf. by apply (Hf c).
Qed.
Lemma torn_key w : torn w -> shelf_key w = Err UnicodeEncodeError.
Proof.
  intros (s & c & -> & Hc & Hs). cbn [shelf_key]. replace (existsb is_surrogate s) with true; [done|].
  symmetry. apply existsb_exists. exists c. split; [by apply elem_of_list_In|]. unfold is_surrogate. apply andb_true_iff. by rewrite !N.leb_le.
Qed.

Section torn.
  Context {A : num} (it : set_order) (Hit : set_order_ok it).
  Notation sobj := (obj A sstore).

  Lemma torn_get st w : sinv st -> torn w -> shelve_get w st = (st, Err UnicodeEncodeError).
  Proof.
    intros H Hw. unfold shelve_get.
    destruct (s_mem st !! w) as [r|] eqn:Em.
    { apply (i_mem st H) in Em as [Hp _]. by apply torn_not_plain in Hw. }
    destruct (decide _) as [Hd|_].
    { apply (i_deleted st H) in Hd as [Hp _]. by apply torn_not_plain in Hw. }
    by rewrite torn_key.
  Qed.

  Lemma torn_first s : elems s <> [] -> exists x l, it (elems s) = x :: l /\ x ∈ elems s.
  Proof.
    intros Hne. destruct (it (elems s)) as [|x l] eqn:Ei.
    - destruct (elems s) as [|x l] eqn:Es; [done|]. exfalso.
      assert (x ∈ it (x :: l)) as Hx by (apply (proj2 (Hit _)); left). rewrite Ei in Hx. by apply elem_of_nil in Hx.
    - exists x, l. split; [done|]. apply (proj2 (Hit _)). rewrite Ei. left.
  Qed.

  Lemma torn_words d xs s b : left_behind A plain_op d -> Forall plain_op xs -> elems s <> [] -> (forall w, w ∈ elems s -> torn w) ->
    let o := fst (run_sops it xs (fst (shelve_open (A:=A) d))) in
    exists o' : sobj, learn shelve_backend it s b o = (o', Err UnicodeEncodeError) /\
      total_of b o' = (total_of b o + 1)%Z /\ total_of (negb b) o' = total_of (negb b) o /\ o_store o' = o_store o /\
      snd (spamprob_evidence shelve_backend it s o) = Err UnicodeEncodeError.
  Proof.
    intros Hl Hxs Hne Hw o. pose proof (reachable_oinv it Hit plain_op d xs (fun x H => H) Hl Hxs) as I. fold o in I.
    destruct (torn_first s Hne) as (x & l & Ei & Hx). apply Hw in Hx.
    assert (exists o' : sobj, learn shelve_backend it s b o = (o', Err UnicodeEncodeError) /\
      total_of b o' = (total_of b o + 1)%Z /\ total_of (negb b) o' = total_of (negb b) o /\ o_store o' = o_store o) as (o' & E & H1 & H2 & H3).
    { unfold learn. rewrite (o_bg o I). unfold add_msg, on_store.
      assert (o_store (if b then with_counts (with_cache o ∅) (o_nspam (with_cache o ∅) + 1) (o_nham (with_cache o ∅))
               else with_counts (with_cache o ∅) (o_nspam (with_cache o ∅)) (o_nham (with_cache o ∅) + 1))
            = o_store o) as -> by by destruct b.
      rewrite Ei. unfold mbind. cbn [mfor]. unfold mbind, add_word at 1, mbind. cbn [bk_get shelve_backend].
      rewrite torn_get; [|apply I|done]. eexists. split; [reflexivity|]. by destruct b. }
    exists o'. split_and!; try done.
    unfold spamprob_evidence, mbind, getclues. rewrite (o_bg o I). unfold getclues_uni, mbind. rewrite Ei.
    cbn [mmap]. unfold mbind, worddistanceget at 1, mbind, on_store. cbn [bk_get shelve_backend].
    by rewrite torn_get; [|apply I|].
  Qed.
End torn.

Lemma cdb_missing (A : num) (X : Type) (cdb : option (cdbmod X)) (o : obj A (gmap pyword winfo)) : exists o',
  cdb_load cdb None o = (o', Ok tt) /\ o_nspam o' = 0%Z /\ o_nham o' = 0%Z /\ o_store o' = ∅.
Proof. eexists. split; [reflexivity|done]. Qed.

Lemma torn_case :
  let s := SList [WStr (str "a" ++ [55296%N]); WStr ([57343%N] ++ str "b")] in
  elems s <> [] /\ (forall w, w ∈ elems s -> exists t c, w = WStr t /\ c ∈ t /\ (55296 <= c <= 57343)%N) /\
  left_behind exact plain_op ∅ /\ Forall plain_op [].
Proof.
  split; [done|]. split; [|split; [constructor|done]].
  intros w Hw. simpl in Hw. rewrite !elem_of_cons, elem_of_nil in Hw. destruct Hw as [->|[->|[]]].
  - eexists _, 55296%N. split; [reflexivity|]. split; [|lia]. right. left.
  - eexists _, 57343%N. split; [reflexivity|]. split; [|lia]. left.
Qed.
