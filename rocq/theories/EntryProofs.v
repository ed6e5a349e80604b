(** * Lemmas about the convenience methods (C139) *)
From Verif Require Import Py NumModel ClassifierModel EntryModel TrainSpec TrainProofs ScoreProofs EntrySpec.

(** ** With and without evidence *)
Section evidence.
  Context {A : num} {St : Type} (bk : backend St) (it : set_order).

  Lemma evidence_flag s (o : obj A St) :
    (spamprob bk it s o).1 = (spamprob_evidence bk it s o).1 /\
    (spamprob bk it s o).2 = rbind (spamprob_evidence bk it s o).2 (fun pe => Ok pe.1).
  Proof.
    unfold spamprob, spamprob_evidence, mbind. destruct (getclues bk it s o) as [o1 [cs|e]]; [|done]. cbn [fst snd]. split; [done|].
    destruct (score_probs A (c_prob <$> cs)) as [[[p x] y]|e]; done.
  Qed.
End evidence.

(** ** Histories *)
Definition call_of (e : entry) : call :=
  match e with
  | ELearnSpam s => CLearn s true | ELearnHam s => CLearn s false
  | EUnlearnSpam s => CUnlearn s true | EUnlearnHam s => CUnlearn s false
  | EProb s => CScore s | EEvidence s => CScore s
  end.
Definition same_answer {A : num} (r : answer A) (r' : outcome A) : Prop :=
  match r, r' with ADone x, ODone y => x = y | ADone _, _ => False | _, OScore _ => True | _, _ => False end.

Section runs.
  Context {A : num} {St : Type} (bk : backend St) (it : set_order).
  Lemma entry_call e (o : obj A St) : (run_entry bk it e o).1 = (run_call bk it (call_of e) o).1 /\
    same_answer (run_entry bk it e o).2 (run_call bk it (call_of e) o).2.
  Proof.
    destruct e as [s|s|s|s|s|s]; cbn [run_entry call_of run_call].
    - unfold learn_spam. by destruct (learn bk it s true o).
    - unfold learn_ham. by destruct (learn bk it s false o).
    - unfold unlearn_spam. by destruct (unlearn bk it s true o).
    - unfold unlearn_ham. by destruct (unlearn bk it s false o).
    - destruct (evidence_flag bk it s o) as [H _]. destruct (spamprob bk it s o), (spamprob_evidence bk it s o). by cbn in *.
    - by destruct (spamprob_evidence bk it s o).
  Qed.

  Lemma entries_calls es : forall o : obj A St,
    (run_entries bk it es o).1 = (run bk it (call_of <$> es) o).1 /\
    Forall2 same_answer (run_entries bk it es o).2 (run bk it (call_of <$> es) o).2.
  Proof.
    induction es as [|e es IH]; intros o; [split; [done|constructor]|]. cbn [run_entries fmap list_fmap run].
    destruct (entry_call e o) as [H1 H2]. destruct (run_entry bk it e o) as [o1 r1]. destruct (run_call bk it (call_of e) o) as [o2 r2].
    cbn [fst snd] in H1, H2. subst o2. destruct (IH o1) as [I1 I2].
    change (list_fmap entry call call_of es) with (call_of <$> es).
    destruct (run_entries bk it es o1) as [o3 rs]. destruct (run bk it (call_of <$> es) o1) as [o4 rs']. cbn [fst snd] in *.
    split; [done|by constructor].
  Qed.
End runs.

(** ** Both kinds of books agree *)
Definition side (b : bool) (ms : list message) : list (list pyword) := (filter (fun m : message => m.2 = b) ms).*1.

Lemma side_same b ws ms : side b ((ws, b) :: ms) = ws :: side b ms.
Proof. unfold side. rewrite filter_cons. cbn [snd]. by rewrite decide_True. Qed.
Lemma side_other b c ws ms : c <> b -> side b ((ws, c) :: ms) = side b ms.
Proof. intros Hc. unfold side. rewrite filter_cons. cbn [snd]. by rewrite decide_False. Qed.
Lemma negb_other (b : bool) : b <> negb b.
Proof. by destruct b. Qed.

Lemma side_split b ms : forall l1 ws l2, side b ms = l1 ++ ws :: l2 -> exists m1 m2, ms = m1 ++ (ws, b) :: m2 /\
  side b (m1 ++ m2) = l1 ++ l2 /\ side (negb b) (m1 ++ m2) = side (negb b) ms.
Proof.
  induction ms as [|[vs c] ms IH]; intros l1 ws l2 E; [by destruct l1|]. destruct (decide (c = b)) as [->|Hc].
  - rewrite side_same in E. destruct l1 as [|x l1].
    + injection E as -> E. exists [], ms. split_and!; [done|exact E|]. cbn [app]. by rewrite (side_other _ b) by apply negb_other.
    + injection E as -> E. destruct (IH _ _ _ E) as (m1&m2&->&E1&E2). exists ((x, b) :: m1), m2. split_and!; [done|..].
      * cbn [app]. rewrite side_same. by f_equal.
      * cbn [app]. by rewrite !(side_other _ b) by apply negb_other.
  - rewrite side_other in E by done. destruct (IH _ _ _ E) as (m1&m2&->&E1&E2). exists ((vs, c) :: m1), m2. split_and!; [done|..].
    + cbn [app]. by rewrite side_other.
    + assert (c = negb b) as -> by (by destruct b, c). cbn [app]. rewrite !side_same. by f_equal.
Qed.

Lemma kept_matched bg es ss hs : kept bg es ss hs -> exists ms, matched bg (call_of <$> es) ms /\ side true ms = ss /\ side false ms = hs.
Proof.
  induction 1 as [|es ss hs s ws _ (ms&IH&I1&I2) Hws|es ss hs s ws _ (ms&IH&I1&I2) Hws|es ss1 ws ss2 hs s _ (ms&IH&I1&I2) Hws
    |es ss hs1 ws hs2 s _ (ms&IH&I1&I2) Hws|es ss hs s _ (ms&IH&I1&I2)|es ss hs s _ (ms&IH&I1&I2)]; rewrite ?fmap_app; cbn [fmap list_fmap call_of].
  - exists []. split_and!; [constructor|done..].
  - exists ((ws, true) :: ms). split_and!; [by constructor|rewrite side_same; by f_equal|by rewrite side_other].
  - exists ((ws, false) :: ms). split_and!; [by constructor|by rewrite side_other|rewrite side_same; by f_equal].
  - destruct (side_split true ms ss1 ws ss2 I1) as (m1&m2&->&E1&E2). exists (m1 ++ m2). cbn [negb] in E2.
    split_and!; [by eapply matched_unlearn|done|by rewrite E2].
  - destruct (side_split false ms hs1 ws hs2 I2) as (m1&m2&->&E1&E2). exists (m1 ++ m2). cbn [negb] in E2.
    split_and!; [by eapply matched_unlearn|by rewrite E2|done].
  - exists ms. split_and!; [by constructor|done..].
  - exists ms. split_and!; [by constructor|done..].
Qed.

Lemma side_total b ms : total b ms = Z.of_nat (length (side b ms)).
Proof.
  induction ms as [|[ws c] ms IH]; [done|]. cbn [total]. rewrite IH. unfold side. rewrite filter_cons. cbn [snd].
  destruct b, c; cbn [eqb]; rewrite ?decide_True, ?decide_False by done; cbn [fmap list_fmap length]; lia.
Qed.
Lemma side_containing b w ms : containing b w ms = with_word w (side b ms).
Proof.
  induction ms as [|[ws c] ms IH]; [done|]. cbn [containing]. rewrite IH. unfold with_word, side. rewrite filter_cons. cbn [snd].
  assert (forall (b : bool), eqb b b = true) as Hb by (by intros []).
  destruct (decide (c = b)) as [->|Hc].
  - rewrite Hb. cbn [fmap list_fmap fst andb]. rewrite filter_cons. case_bool_decide; [rewrite decide_True by done|rewrite decide_False by done]; [cbn [length]; lia|lia].
  - assert (eqb b c = false) as -> by (by destruct b, c). cbn [andb]. lia.
Qed.

Lemma entry_counts {A : num} it bg es ss hs : set_order_ok it -> kept bg es ss hs ->
  let '(o, rs) := run_entries mem_backend it es (c_new bg ∅ : obj A (gmap pyword winfo)) in
  o_nspam o = Z.of_nat (length ss) /\ o_nham o = Z.of_nat (length hs) /\
  (forall w, o_store o !! w = if (with_word w ss =? 0)%Z && (with_word w hs =? 0)%Z then None else Some (WI (with_word w ss) (with_word w hs))) /\
  Forall returned rs.
Proof.
  intros Hit Hk. destruct (kept_matched bg es ss hs Hk) as (ms&Hm&<-&<-).
  pose proof (matched_refines (A:=A) it Hit bg _ _ Hm) as HR.
  destruct (entries_calls mem_backend it es (c_new bg ∅ : obj A (gmap pyword winfo))) as [E1 E2].
  destruct (run_entries mem_backend it es (c_new bg ∅)) as [o rs]. destruct (run mem_backend it (call_of <$> es) (c_new bg ∅)) as [o' rs'].
  cbn [fst snd] in E1, E2. subst o'. destruct HR as [(_&H2&H3&H4) HF]. split_and!.
  - by rewrite H2, side_total.
  - by rewrite H3, side_total.
  - intros w. rewrite H4. unfold expected_record. by rewrite !side_containing.
  - clear -E2 HF. induction E2 as [|r r' rs rs' Hr _ IH]; [constructor|]. apply Forall_cons in HF as [H HF]. constructor; [|by apply IH].
    destruct r; [|done..]. destruct r'; [|done]. cbn in *. by subst.
Qed.
