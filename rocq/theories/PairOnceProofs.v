(** * What a single training does to a score with bigrams (C134) *)
From Coq Require Import Reals Lra Lia String.
From Flocq Require Import Core.
From Verif Require Import Py NumModel ClassifierModel TrainSpec TrainProofs ScoreProofs
  SortProofs ScoreSpec ClueProofs TileProofs RealModel RealSpec
  RealProofs ExactProofs ApiProofs FloatProofs FloatApiProofs MessageModel MessageProofs MessageCases OnceProofs OnceSpec OnceCases PairOnceSpec.
Local Open Scope R_scope.

Lemma no_none_containing b (ms : list message) : Forall (fun m : message => WNone ∉ m.1) ms -> containing b WNone ms = 0%Z.
Proof.
  induction 1 as [|[ws b'] ms Hw _ IH]; simpl in *; [done|].
  rewrite bool_decide_eq_false_2 by done. rewrite andb_false_r. lia.
Qed.

Section pair.
  Context {M : machine} (it : set_order) (Hit : set_order_ok it) (h : list call) (ms : list message).
  Context (Hm : matched true h ms) (Hb : (Z.of_nat (length h) < 2 ^ 48)%Z).
  Context (Hnone : Forall (fun m => WNone ∉ m.1) ms).
  Context (s : stream) (Hty : one_type true (elems s)) (b : bool).
  Context (Hother : forall w, candidate true (elems s) w -> containing (negb b) w ms = 0%Z).
  Notation o := (fst (run mem_backend it h (c_new true ∅ : dobj))).

  Lemma pair_bounded : bounded_set ms.
  Proof. unfold bounded_set. pose proof (matched_length _ _ _ Hm). lia. Qed.

  Lemma pair_side w q : candidate true (elems s) w -> spam_probability o w = Ok q -> (1 <= containing b w ms)%Z ->
    q0 <= side b q /\ Rabs (q - (if b then robinson (containing b w ms) (total b ms) 0 (total (negb b) ms)
                                  else robinson 0 (total (negb b) ms) (containing b w ms) (total b ms))) <= 2 / 10 ^ 15.
  Proof.
    intros Hin Hq H1. pose proof (Hother w Hin) as H0.
    destruct (matched_spam_probability it Hit true _ _ Hm pair_bounded w) as (q'&Hq'&_&Nq&_).
    rewrite Hq in Hq'. injection Hq' as <-. apply near9 in Nq; [|destruct b; simpl in *; lia].
    pose proof (containing_le b w ms) as Hle.
    destruct (one_label_robinson (containing b w ms) (total b ms) (total (negb b) ms) ltac:(lia)) as [E1 E2].
    assert (1 <= IZR (containing b w ms)) as Hkr by (by apply IZR_le).
    assert (225 / 1000 / (45 / 100 + IZR (containing b w ms)) <= 225 / 1000 / (145 / 100)) as Hd.
    { apply Rmult_le_compat_l; [lra|]. apply Rinv_le_contravar; lra. }
    assert (0 < 225 / 1000 / (45 / 100 + IZR (containing b w ms))) as Hr.
    { apply Rmult_lt_0_compat; [lra|apply Rinv_0_lt_compat; lra]. }
    set (x := 225 / 1000 / (45 / 100 + IZR (containing b w ms))) in *.
    unfold q0. replace (10 ^ 15) with 1000000000000000 in * by (simpl; ring).
    destruct b; simpl in *; rewrite H0 in Nq.
    - rewrite E1 in *. apply Rabs_le_inv in Nq. split; [lra|]. apply Rabs_le. lra.
    - rewrite E2 in *. apply Rabs_le_inv in Nq. split; [lra|]. apply Rabs_le. lra.
  Qed.

  Lemma pair_used w q : candidate true (elems s) w -> spam_probability o w = Ok q -> strong (A:=D) q = true -> (1 <= containing b w ms)%Z.
  Proof.
    intros Hin Hq Hs. pose proof (Hother w Hin) as H0. pose proof (containing_le b w ms) as Hle.
    destruct (Z.eq_dec (containing b w ms) 0) as [E|E]; [exfalso|lia].
    destruct (matched_spam_probability it Hit true _ _ Hm pair_bounded w) as (q'&Hq'&_&_&Zq).
    rewrite Hq in Hq'. injection Hq' as <-. rewrite Zq in Hs by (destruct b; simpl in *; lia).
    rewrite weak_close in Hs; [done|]. rewrite Rminus_diag_eq by done. rewrite Rabs_R0. lra.
  Qed.

  Lemma pair_strong w q : candidate true (elems s) w -> spam_probability o w = Ok q -> (1 <= containing b w ms)%Z -> strong (A:=D) q = true.
  Proof.
    intros Hin Hq H1. destruct (pair_side w q Hin Hq H1) as [H2 _]. unfold q0 in H2.
    destruct (matched_spam_probability it Hit true _ _ Hm pair_bounded w) as (q'&Hq'&Rq&_).
    rewrite Hq in Hq'. injection Hq' as <-. pose proof u_pos.
    apply strong_far; [lra|]. destruct b; simpl in H2; [rewrite Rabs_pos_eq|rewrite Rabs_left]; lra.
  Qed.

  (** The clues of the message *)
  Lemma pair_clues : exists o' p ev (used : list ((pyword * R) * list Z)), spamprob_evidence mem_backend it s o = (o', Ok (p, ev)) /\
    Rabs (side b p - combined_score (side b <$> (used.*1.*2))) <= 4 / 10 ^ 12 /\
    Forall high (side b <$> (used.*1.*2)) /\ NoDup (used.*1.*1) /\ NoDup (mjoin (used.*2)) /\
    (forall w q pos, ((w, q), pos) ∈ used -> occurs (elems s) w pos /\ spam_probability o w = Ok q /\ (1 <= containing b w ms)%Z) /\
    (forall w pos0, occurs (elems s) w pos0 -> (1 <= containing b w ms)%Z -> w ∉ used.*1.*1 ->
       (exists pos w' q' pos' i, occurs (elems s) w pos /\ ((w', q'), pos') ∈ used /\ i ∈ pos /\ i ∈ pos') \/ length used = 150%nat).
  Proof.
    destruct (score_returns_b64 it Hit true _ _ Hm pair_bounded s Hnone Hty) as (o'&p&ev&E).
    destruct (score_b64 it Hit true h s p ev o' Hb E) as (vH&vS&rest&Eev&Hr&_&Hp&_).
    assert (o_store o !! WNone = None) as Hn.
    { destruct (matched_view it Hit true _ _ Hm) as (_&_&T3). rewrite T3. unfold expected_record.
      by rewrite !no_none_containing. }
    destruct (clues_bi mnum_total it Hit h s p ev o' Hn (proj1 mnum_sane) E) as (evH&evS&rest'&used&Eev'&HP&Nd&_&Nj&Hin&Hout).
    rewrite Eev in Eev'. injection Eev' as _ _ <-.
    exists o', p, ev, used. split; [done|].
    assert (combined_score (side b <$> rest.*2) = combined_score (side b <$> used.*1.*2)) as Ec.
    { apply indicators_perm. by rewrite HP. }
    split; [|split_and!; [|done|done| |]].
    - change (Rabs (side b p - combined_score (side b <$> used.*1.*2)) <= 4 / 10 ^ 12). rewrite <- Ec. destruct b.
      + change (side true p) with p. change (side true <$> rest.*2) with (id <$> rest.*2). by rewrite list_fmap_id.
      + change (side false p) with (1 - p). assert (combined_score (side false <$> rest.*2) = 1 - combined_score (rest.*2)) as -> by apply indicators_mirror.
        replace (1 - p - (1 - combined_score (rest.*2))) with (- (p - combined_score (rest.*2))) by ring. by rewrite Rabs_Ropp.
    - apply Forall_fmap, Forall_fmap, Forall_fmap, Forall_forall. intros [[w q] pos] Hw. simpl.
      destruct (Hin w q pos Hw) as (Ho&Hq&Hs). assert (candidate true (elems s) w) as Hcand by by exists pos.
      split; [apply (pair_side w q Hcand Hq), (pair_used w q Hcand Hq Hs)|].
      assert ((w, q) ∈ rest) as Hwr. { rewrite HP. apply elem_of_list_fmap. by exists ((w, q), pos). }
      rewrite Forall_forall in Hr. specialize (Hr _ Hwr). simpl in Hr. destruct b; simpl; lra.
    - intros w q pos Hw. destruct (Hin w q pos Hw) as (Ho&Hq&Hs). split; [done|]. split; [done|].
      apply (pair_used w q); [by exists pos|done|done].
    - intros w pos0 Ho H1 Hnin. assert (candidate true (elems s) w) as Hcand by by exists pos0.
      destruct (matched_spam_probability it Hit true _ _ Hm pair_bounded w) as (q&Hq&_).
      destruct (Hout w q pos0 Ho Hq (pair_strong w q Hcand Hq H1) Hnin) as [(pos&w'&q'&pos'&i&?&?&?&?&_)|[? _]]; [left|by right].
      by exists pos, w', q', pos', i.
  Qed.

  Lemma pair_three w1 w2 w3 : w1 <> w2 -> w1 <> w3 -> w2 <> w3 ->
    (forall w, w ∈ [w1; w2; w3] -> w ∈ elems s /\ ~ pair_of (elems s) w /\ (1 <= containing b w ms)%Z) ->
    exists o' p ev, spamprob_evidence mem_backend it s o = (o', Ok (p, ev)) /\
      9 / 10 < (if b then p else 1 - p) /\ classify D p = (if b then spam else ham).
  Proof.
    intros N12 N13 N23 Hw. destruct pair_clues as (o'&p&ev&used&E&Hp&Hh&Nd&Nj&Hin&Hout).
    exists o', p, ev. split; [done|].
    assert (2 <= length used)%nat as Hlen.
    { destruct (Nat.le_gt_cases 2 (length used)) as [|Hl]; [done|exfalso].
      assert (forall w, w ∈ [w1; w2; w3] -> exists c pos (i : nat), (c, pos) ∈ used /\ Z.of_nat i ∈ pos /\ elems s !! i = Some w) as Hcov.
      { intros w H. destruct (Hw w H) as (Hws&Hnp&H1). apply elem_of_list_lookup in Hws as [i0 Hi0].
        assert (forall pos, occurs (elems s) w pos -> exists i, elems s !! i = Some w /\ pos = [Z.of_nat i]) as Hocc.
        { intros pos [?|(i&x&y&?&?&?&?)]; [done|]. exfalso. apply Hnp. by exists i, x, y. }
        destruct (decide (w ∈ used.*1.*1)) as [Hu|Hu].
        - apply elem_of_list_fmap in Hu as ([w' q]&->&Hu). apply elem_of_list_fmap in Hu as ([[w'' q''] pos]&Eq&Hu). simpl in Eq.
          injection Eq as <- <-. destruct (Hin _ _ _ Hu) as (Ho&_&_). destruct (Hocc _ Ho) as (i&Hi&->).
          exists (w', q), [Z.of_nat i], i. split; [done|]. split; [left|done].
        - destruct (Hout w [Z.of_nat i0]) as [(pos&w'&q'&pos'&i&Ho&Hu'&Hi&Hi')|Hc]; [left; by exists i0|done|done| |lia].
          destruct (Hocc _ Ho) as (j&Hj&->). apply elem_of_list_singleton in Hi as ->.
          by exists (w', q'), pos', j. }
      destruct (Hcov w1) as (c1&pos1&i1&U1&P1&L1); [set_solver|].
      destruct (Hcov w2) as (c2&pos2&i2&U2&P2&L2); [set_solver|].
      destruct (Hcov w3) as (c3&pos3&i3&U3&P3&L3); [set_solver|].
      destruct used as [|[[w q] pos] [|? ?]]; [by apply elem_of_nil in U1| |simpl in Hl; lia].
      apply elem_of_list_singleton in U1, U2, U3. injection U1 as -> ->. injection U2 as -> ->. injection U3 as -> ->.
      destruct (Hin w q pos) as (Ho&_&_); [left|].
      assert (i1 <> i2) by congruence. assert (i1 <> i3) by congruence. assert (i2 <> i3) by congruence.
      destruct Ho as [(i&_&->)|(i&x&y&_&_&_&->)].
      - apply elem_of_list_singleton in P1, P2. lia.
      - rewrite elem_of_cons, elem_of_list_singleton in P1, P2, P3. lia. }
    match type of Hp with Rabs (_ - ?x) <= _ => set (cs := x) in Hp end. assert (9 / 10 + 1 / 1000 < cs) as Hc.
    { apply combined_several; [by rewrite !fmap_length|done]. }
    clearbody cs. apply Rabs_le_inv in Hp. replace (10 ^ 12) with 1000000000000 in Hp by (simpl; ring).
    split; [change (9 / 10 < side b p); lra|]. destruct b; unfold side in Hp; [apply certainly_spam|apply certainly_ham]; lra.
  Qed.
End pair.

(** ** The message just learned *)
Lemma list_tokens l w : w ∈ enhance_list l <-> before_last l w \/ pair_of l w.
Proof.
  rewrite enhance_list_spec. split.
  - intros [(i&x&H1&H2&->)|(i&x&y&H1&H2&->)].
    + left. apply lookup_lt_is_Some_2 in H2 as [y Hy]. by exists i, y.
    + right. by exists i, x, y.
  - intros [(i&y&H1&H2)|(i&x&y&H1&H2&->)].
    + left. exists i, w. split; [done|]. split; [|done]. by apply lookup_lt_Some in H2.
    + right. by exists i, x, y.
Qed.

Lemma candidates_bi l w : candidate true l w <-> w ∈ l \/ pair_of l w.
Proof.
  split.
  - intros [pos [(i&H&_)|(i&x&y&H1&H2&->&_)]].
    + left. by apply elem_of_list_lookup_2 in H.
    + right. by exists i, x, y.
  - intros [[i H]%elem_of_list_lookup|(i&x&y&H1&H2&->)].
    + exists [Z.of_nat i]. left. by exists i.
    + exists [Z.of_nat i; Z.of_nat (S i)]. right. by exists i, x, y.
Qed.

Lemma learned_pairs {M : machine} it : set_order_ok it -> forall h ms l s b w1 w2 w3, matched true h ms -> (Z.of_nat (S (length h)) < 2 ^ 48)%Z ->
  Forall (fun m => WNone ∉ m.1) ms -> (forall w, w ∈ l -> exists t, w = WStr t) -> elems s = l ->
  w1 <> w2 -> w1 <> w3 -> w2 <> w3 ->
  (forall w, w ∈ [w1; w2; w3] -> before_last l w /\ ~ pair_of l w) ->
  (forall w, w ∈ l \/ pair_of l w -> containing (negb b) w ms = 0%Z) ->
  exists o' p ev, spamprob_evidence mem_backend it s
      (fst (run mem_backend it (h ++ [CLearn (SList l) b]) (c_new true ∅ : dobj))) = (o', Ok (p, ev)) /\
    9 / 10 < (if b then p else 1 - p) /\ classify D p = (if b then spam else ham).
Proof.
  intros Hit h ms l s b w1 w2 w3 Hm Hb Hnone Hty Hs N12 N13 N23 Hw Hother.
  assert (matched true (h ++ [CLearn (SList l) b]) ((enhance_list l, b) :: ms)) as Hm'.
  { apply matched_learn; [done|]. intros w. apply (toks_spec true (SList l)). }
  apply (pair_three it Hit _ _ Hm') with w1 w2 w3; try done.
  - rewrite app_length. simpl. lia.
  - constructor; [|done]. simpl. intros [H|(i&x&y&H1&H2&E)]%list_tokens.
    + destruct H as (i&y&H&_). apply elem_of_list_lookup_2, Hty in H as [t H]. done.
    + apply elem_of_list_lookup_2, Hty in H1 as [t ->]. apply elem_of_list_lookup_2, Hty in H2 as [t' ->]. done.
  - rewrite Hs. exact Hty.
  - intros w Hc. rewrite Hs in Hc. apply candidates_bi in Hc. rewrite containing_learned, Hother by done. by destruct b.
  - intros w H. rewrite Hs. destruct (Hw w H) as [(i&y&H1&H2) Hp]. split; [by apply elem_of_list_lookup_2 in H1|]. split; [done|].
    rewrite containing_learned, bool_decide_eq_true_2 by (apply list_tokens; left; by exists i, y).
    pose proof (containing_le b w ms). destruct b; simpl; lia.
Qed.

(** ** One clue is not enough *)
Lemma one_clue {M : machine} it h ms s w0 pos0 : set_order_ok it -> matched true h ms -> (Z.of_nat (length h) < 2 ^ 48)%Z ->
  Forall (fun m => WNone ∉ m.1) ms -> one_type true (elems s) -> total true ms = 1%Z -> total false ms = 0%Z ->
  (forall w, containing false w ms = 0%Z) -> occurs (elems s) w0 pos0 -> (1 <= containing true w0 ms)%Z ->
  (forall w pos, occurs (elems s) w pos -> (1 <= containing true w ms)%Z -> 0%Z ∈ pos) ->
  exists o' p ev, spamprob_evidence mem_backend it s (fst (run mem_backend it h (c_new true ∅ : dobj))) = (o', Ok (p, ev)) /\
    p < 9 / 10 /\ classify D p = unsure.
Proof.
  intros Hit Hm Hb Hnone Hty T1 T0 Hf Ho0 Hc0 Hz.
  destruct (pair_clues it Hit h ms Hm Hb Hnone s Hty true) as (o'&p&ev&used&E&Hp&Hh&Nd&Nj&Hin&Hout); [intros w _; apply Hf|].
  exists o', p, ev. split; [done|].
  destruct used as [|[[w q] pos] used].
  { exfalso. destruct (Hout w0 pos0 Ho0 Hc0) as [(pos&w'&q'&pos'&i&_&H&_)|H]; [by apply not_elem_of_nil|by apply elem_of_nil in H|done]. }
  destruct (Hin w q pos) as (Ho&Hq&H1); [left|].
  destruct used as [|[[w2 q2] pos2] used].
  2:{ exfalso. destruct (Hin w2 q2 pos2) as (Ho2&_&H12); [right; left|].
    simpl in Nj. apply NoDup_app in Nj as (_&Nj&_). apply (Nj 0%Z (Hz _ _ Ho H1)). apply elem_of_app. left. by apply (Hz w2). }
  destruct (pair_side it Hit h ms Hm Hb s true ltac:(intros; apply Hf) w q ltac:(by exists pos) Hq H1) as [_ Hn].
  pose proof (containing_le true w ms) as Hle. rewrite T1 in Hle. assert (containing true w ms = 1%Z) as Hc by lia.
  rewrite Hc, T1 in Hn. change (total (negb true) ms) with (total false ms) in Hn. rewrite T0 in Hn.
  destruct (one_label_robinson 1 1 0 ltac:(lia)) as [Er _]. rewrite Er in Hn.
  simpl in Hp. unfold side in Hp.
  assert (0 < q < 1) as Hq1. { simpl in Hh. apply Forall_cons in Hh as [[Hh1 Hh2] _]. unfold side, q0 in *. lra. }
  rewrite (combined_single q Hq1) in Hp.
  apply Rabs_le_inv in Hp, Hn. replace (10 ^ 15) with 1000000000000000 in Hn by (simpl; ring).
  replace (10 * (10 * (10 * (10 * (10 * (10 * (10 * (10 * (10 * (10 * (10 * (10 * 1)))))))))))) with 1000000000000 in Hp by ring.
  split; [lra|]. apply certainly_unsure. lra.
Qed.

Notation a := (WStr (str "a")).
Notation c := (WStr (str "c")).
Notation d := (WStr (str "d")).
Notation e := (WStr (str "e")).

Lemma occurs_list l w pos : occurs l w pos ->
  (exists i, (i < length l)%nat /\ l !! i = Some w /\ pos = [Z.of_nat i]) \/
  (exists i, (S i < length l)%nat /\ exists x y, l !! i = Some x /\ l !! S i = Some y /\ w = bigram x y /\ pos = [Z.of_nat i; Z.of_nat (S i)]).
Proof.
  intros [(i&H&->)|(i&x&y&H1&H2&->&->)].
  - left. exists i. split; [by apply lookup_lt_Some in H|done].
  - right. exists i. split; [by apply lookup_lt_Some in H2|]. by exists x, y.
Qed.

(** A message of two words *)
Lemma two_words_once {M : machine} it : set_order_ok it -> exists o' p ev, spamprob_evidence mem_backend it (SList [a; c])
    (fst (run mem_backend it [CLearn (SList [a; c]) true] (c_new true ∅ : dobj))) = (o', Ok (p, ev)) /\
  p < 9 / 10 /\ classify D p = unsure.
Proof.
  intros Hit. set (ms := [([a; bigram a c], true)] : list message).
  assert (matched true [CLearn (SList [a; c]) true] ms) as Hm.
  { apply (matched_learn true [] [] (SList [a; c]) true); [constructor|]. intros w. exact (toks_spec true (SList [a; c]) w). }
  apply (one_clue it _ ms (SList [a; c]) a [0%Z] Hit Hm).
  - simpl. lia.
  - unfold ms. apply (bool_decide_unpack _). by vm_compute.
  - simpl. intros w Hw. apply elem_of_cons in Hw as [->|Hw%elem_of_list_singleton]; [by eexists|subst; by eexists].
  - done.
  - done.
  - done.
  - left. by exists 0%nat.
  - by vm_compute.
  - intros w pos [(i&Hl&Hi&->)|(i&Hl&x&y&Hx&Hy&->&->)]%occurs_list Hc; simpl in Hl.
    + destruct i as [|[|i]]; [left| |lia]. exfalso. assert (w = c) as -> by (apply (inj Some); symmetry; exact Hi).
      by vm_compute in Hc.
    + destruct i as [|i]; [left|lia].
Qed.

(** A message of four words learned from an iterator *)
Lemma iterator_once {M : machine} it : set_order_ok it -> exists o' p ev, spamprob_evidence mem_backend it (SList [a; c; d; e])
    (fst (run mem_backend it [CLearn (SIter [a; c; d; e]) true] (c_new true ∅ : dobj))) = (o', Ok (p, ev)) /\
  p < 9 / 10 /\ classify D p = unsure.
Proof.
  intros Hit. set (ms := [([a; bigram c e], true)] : list message).
  assert (matched true [CLearn (SIter [a; c; d; e]) true] ms) as Hm.
  { apply (matched_learn true [] [] (SIter [a; c; d; e]) true); [constructor|]. intros w. exact (toks_spec true (SIter [a; c; d; e]) w). }
  apply (one_clue it _ ms (SList [a; c; d; e]) a [0%Z] Hit Hm).
  - simpl. lia.
  - unfold ms. apply (bool_decide_unpack _). by vm_compute.
  - simpl. intros w Hw. rewrite !elem_of_cons in Hw. destruct Hw as [->|[->|[->|[->|Hw%elem_of_nil]]]]; [by eexists..|done].
  - done.
  - done.
  - done.
  - left. by exists 0%nat.
  - by vm_compute.
  - intros w pos [(i&Hl&Hi&->)|(i&Hl&x&y&Hx&Hy&->&->)]%occurs_list Hc; simpl in Hl.
    + destruct i as [|[|[|[|i]]]]; [left| | | |lia]; exfalso.
      * assert (w = c) as -> by (apply (inj Some); symmetry; exact Hi). by vm_compute in Hc.
      * assert (w = d) as -> by (apply (inj Some); symmetry; exact Hi). by vm_compute in Hc.
      * assert (w = e) as -> by (apply (inj Some); symmetry; exact Hi). by vm_compute in Hc.
    + destruct i as [|[|[|i]]]; [left| | |lia]; exfalso.
      * assert (x = c) as -> by (apply (inj Some); symmetry; exact Hx). assert (y = d) as -> by (apply (inj Some); symmetry; exact Hy).
        by vm_compute in Hc.
      * assert (x = d) as -> by (apply (inj Some); symmetry; exact Hx). assert (y = e) as -> by (apply (inj Some); symmetry; exact Hy).
        by vm_compute in Hc.
Qed.

Lemma not_a_pair t l : (forall x, x ∈ l -> exists t, x = WStr t) -> hd 0%N t <> 98%N -> ~ pair_of l (WStr t).
Proof.
  intros Hl Ht (i&x&y&H1&H2&E). apply elem_of_list_lookup_2, Hl in H1 as [t1 ->]. apply elem_of_list_lookup_2, Hl in H2 as [t2 ->].
  apply Ht. unfold bigram in E. injection E as ->. done.
Qed.

Lemma pair_case : let l := [a; c; d; e] in
  matched true [] [] /\ (forall w, w ∈ l -> exists t, w = WStr t) /\ a <> c /\ a <> d /\ c <> d /\
  (forall w, w ∈ [a; c; d] -> before_last l w /\ ~ pair_of l w).
Proof.
  cbv zeta. assert (forall w, w ∈ [a; c; d; e] -> exists t, w = WStr t) as Ht.
  { intros w Hw. rewrite !elem_of_cons in Hw. destruct Hw as [->|[->|[->|[->|Hw%elem_of_nil]]]]; [by eexists..|done]. }
  split_and!; [constructor|done|done|done|done|].
  intros w Hw. rewrite !elem_of_cons in Hw. destruct Hw as [->|[->|[->|Hw%elem_of_nil]]]; [..|done]; (split; [|by apply not_a_pair]).
  - by exists 0%nat, c.
  - by exists 1%nat, d.
  - by exists 2%nat, e.
Qed.
