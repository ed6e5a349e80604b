(** * Padding with words of the other side, in doubles (C132) *)
From Coq Require Import String Reals Lra Lia.
From Flocq Require Import Core.
From Verif Require Import Py NumModel ClassifierModel TrainSpec TrainProofs ScoreProofs SortProofs ScoreSpec ClueProofs TileProofs CorpusProofs RealModel RealSpec RealProofs ExactProofs ApiProofs ShelveApiProofs
  FloatProofs FloatApiProofs MessageModel OnceSpec OnceProofs OnceCases PadProofs SwayProofs DrownSpec DrownProofs.
Local Open Scope R_scope.

Lemma strength_value {M : machine} (q : R) : 0 <= q <= 1 -> strength (A:=D) q = b64 (Rabs (q - 1 / 2)).
Proof.
  intros H. unfold strength. cbn [nabs nsub nQ mnum].
  rewrite mhalf, (mb (q - 1 / 2) 1) by (first [apply Rabs_le; lra | simpl; lra]).
  assert (forall x, 0 <= x -> 0 <= b64 x) as Hpos.
  { intros x Hx. rewrite <- (round_0 radix2 (FLT_exp (-1074) 53) ZnearestE). by apply (rnd_mono b64 rounding_b64). }
  destruct (Rle_dec 0 (q - 1 / 2)) as [H0|H0].
  - rewrite (Rabs_pos_eq (q - 1 / 2)) by done. apply Rabs_pos_eq, Hpos. done.
  - rewrite (Rabs_left (q - 1 / 2)) by lra. replace (q - 1 / 2) with (- - (q - 1 / 2)) at 1 by ring.
    unfold b64. rewrite round_NE_opp, Rabs_Ropp. apply Rabs_pos_eq. apply Hpos. lra.
Qed.

Lemma gap (n k : R) : 0 <= n -> n + 1 <= k -> k <= 100000 ->
  n / (45 / 100 + n) / 2 + 5 / 10 ^ 12 < 1 / 2 - 225 / 1000 / (45 / 100 + k).
Proof.
  intros Hn Hk Hk2. replace (10 ^ 12) with 1000000000000 by (simpl; ring).
  replace (n / (45 / 100 + n) / 2) with (1 / 2 - 225 / 1000 / (45 / 100 + n)) by (field; lra).
  assert (225 / 1000 / (45 / 100 + n) - 225 / 1000 / (45 / 100 + k) = 225 / 1000 * (k - n) / ((45 / 100 + n) * (45 / 100 + k))) as E by (field; lra).
  enough (5 / 1000000000000 < 225 / 1000 * (k - n) / ((45 / 100 + n) * (45 / 100 + k))) by lra.
  assert (0 < (45 / 100 + n) * (45 / 100 + k)) as H0 by (apply Rmult_lt_0_compat; lra).
  assert ((45 / 100 + n) * (45 / 100 + k) <= 100001 * 100001) by (apply Rmult_le_compat; lra).
  set (d := (45 / 100 + n) * (45 / 100 + k)) in *.
  apply Rmult_lt_reg_r with d; [done|]. unfold Rdiv at 2. rewrite (Rmult_assoc _ (/ d) d), Rinv_l by lra. lra.
Qed.

Section double.
  Context {M : machine} (it : set_order) (Hit : set_order_ok it) (h : list call) (ms : list message).
  Context (Hm : matched false h ms) (Hb : (Z.of_nat (length h) < 2 ^ 48)%Z).
  Notation o := (fst (run mem_backend it h (c_new false ∅ : dobj))).

  (** The strength of a word in few messages *)
  Lemma rare_strength w q n : (0 <= n)%Z -> (containing true w ms + containing false w ms <= n)%Z ->
    spam_probability o w = Ok q -> 0 <= q <= 1 /\ Rabs (q - 1 / 2) <= IZR n / (45 / 100 + IZR n) / 2 + 2 / 10 ^ 15.
  Proof.
    intros Hn0 Hn Hq.
    destruct (matched_spam_probability it Hit false _ _ Hm (few_messages h ms Hm Hb) w) as (q'&Hq'&Rq&Nq&Zq).
    rewrite Hq in Hq'. injection Hq' as <-. split; [pose proof u_pos; lra|].
    pose proof (containing_le true w ms) as C1. pose proof (containing_le false w ms) as C2.
    assert (0 <= IZR n) as Hnr by (by apply IZR_le).
    assert (0 <= IZR n / (45 / 100 + IZR n)) as Hpos.
    { apply Rmult_le_pos; [done|]. left. apply Rinv_0_lt_compat. lra. }
    replace (10 ^ 15) with 1000000000000000 by (simpl; ring).
    destruct (Z.eq_dec (containing true w ms + containing false w ms) 0) as [E|E].
    { rewrite (Zq E). replace (1 / 2 - 1 / 2) with 0 by ring. rewrite Rabs_R0. lra. }
    assert (0 < containing true w ms + containing false w ms)%Z as E' by lia.
    specialize (Nq E'). apply near9 in Nq.
    pose proof (containing_consistent w ms E) as Hc. pose proof (robinson_range _ _ _ _ Hc) as Hr.
    pose proof (share_range _ _ _ _ Hc) as Hs. pose proof (robinson_alt _ _ _ _ Hc) as Ha.
    set (r := robinson _ _ _ _) in *. set (sh := spam_share _ _ _ _) in *.
    set (m := (containing false w ms + containing true w ms)%Z) in *.
    assert (IZR m <= IZR n) as Hmn by (apply IZR_le; unfold m; lia).
    assert (1 <= IZR m) as Hm1 by (apply IZR_le; unfold m; lia).
    assert (0 <= IZR m / (45 / 100 + IZR m) <= IZR n / (45 / 100 + IZR n)) as Hf.
    { split; [apply Rmult_le_pos; [lra|left; apply Rinv_0_lt_compat; lra]|].
      replace (IZR m / (45 / 100 + IZR m)) with (1 - 45 / 100 / (45 / 100 + IZR m)) by (field; lra).
      replace (IZR n / (45 / 100 + IZR n)) with (1 - 45 / 100 / (45 / 100 + IZR n)) by (field; lra).
      assert (45 / 100 / (45 / 100 + IZR n) <= 45 / 100 / (45 / 100 + IZR m)); [|lra].
      apply Rmult_le_compat_l; [lra|]. apply Rinv_le_contravar; lra. }
    assert (Rabs (r - 1 / 2) <= IZR n / (45 / 100 + IZR n) / 2) as Hr2.
    { rewrite Ha. set (f := IZR m / (45 / 100 + IZR m)) in *. set (g := IZR n / (45 / 100 + IZR n)) in *.
      apply Rabs_le. nra. }
    replace (10 ^ 15) with 1000000000000000 in Nq by (simpl; ring).
    replace (q - 1 / 2) with (q - r + (r - 1 / 2)) by ring.
    eapply Rle_trans; [apply Rabs_triang|]. nra.
  Qed.

  Lemma rare_weaker b k (pad : stream) v w p q : (1 <= k <= 100000)%Z -> (forall w, w ∈ elems pad -> only_in b k ms w) ->
    (containing true w ms + containing false w ms < k)%Z -> v ∈ elems pad ->
    spam_probability o v = Ok p -> spam_probability o w = Ok q ->
    strong (A:=D) p = true /\ nlt D (strength (A:=D) q) (strength (A:=D) p) = true.
  Proof.
    intros Hk Hpad Hw Hv Ep Eq.
    pose proof (word_side it Hit h ms Hm Hb pad b k ltac:(lia) Hpad v p Hv Ep) as Hs.
    destruct (matched_spam_probability it Hit false _ _ Hm (few_messages h ms Hm Hb) v) as (p'&Hp'&Rp&_).
    rewrite Ep in Hp'. injection Hp' as <-.
    assert (0 <= p <= 1) as Rp' by (pose proof u_pos; lra).
    pose proof (containing_le true w ms) as C1. pose proof (containing_le false w ms) as C2.
    destruct (rare_strength w q (k - 1) ltac:(lia) ltac:(lia) Eq) as [Rq Hq].
    pose proof (gap (IZR (k - 1)) (IZR k)) as Hg. rewrite minus_IZR in *.
    assert (1 <= IZR k) as K1 by (apply IZR_le; lia). assert (IZR k <= 100000) as K2 by (apply IZR_le; lia).
    specialize (Hg ltac:(lra) ltac:(lra) K2).
    assert (225 / 1000 / (45 / 100 + IZR k) <= 225 / 1000 / (145 / 100)) as Hd.
    { apply Rmult_le_compat_l; [lra|]. apply Rinv_le_contravar; lra. }
    replace (10 ^ 12) with 1000000000000 in * by (simpl; ring).
    replace (10 ^ 15) with 1000000000000000 in * by (simpl; ring).
    set (x := 225 / 1000 / (45 / 100 + IZR k)) in *. set (y := (IZR k - 1) / (45 / 100 + (IZR k - 1)) / 2) in *.
    assert (1 / 2 - x - 2 / 1000000000000000 <= Rabs (p - 1 / 2)) as Hp.
    { destruct b; unfold side in Hs; [eapply Rle_trans; [|apply Rle_abs]; lra|].
      rewrite <- Rabs_Ropp. eapply Rle_trans; [|apply Rle_abs]. lra. }
    assert (Rabs (p - 1 / 2) <= 1 / 2) as Hp2 by (apply Rabs_le; lra).
    split; [apply strong_far; [done|]; lra|].
    rewrite !strength_value by done. cbn [nlt mnum]. apply rltb_true.
    pose proof (Rabs_le_inv _ _ (b64_close (Rabs (p - 1 / 2)) ltac:(lra))) as B1.
    replace (10 ^ 12) with 1000000000000 in * by (simpl; ring).
    destruct (Rle_dec (1 / 8) (Rabs (q - 1 / 2))) as [Hq8|Hq8].
    - pose proof (Rabs_le_inv _ _ (b64_close (Rabs (q - 1 / 2)) ltac:(lra))) as B2.
      replace (10 ^ 12) with 1000000000000 in * by (simpl; ring). lra.
    - assert (b64 (Rabs (q - 1 / 2)) <= b64 (1 / 8)) as B2 by (apply (rnd_mono b64 rounding_b64); lra).
      pose proof (Rabs_le_inv _ _ (b64_close (1 / 8) ltac:(lra))) as B3.
      replace (10 ^ 12) with 1000000000000 in * by (simpl; ring). lra.
  Qed.

  Lemma good_outweighs b k (pad : stream) msg : (1 <= k <= 100000)%Z -> good_words b k ms (elems pad) ->
    rarer_than k ms msg -> outweighs (A:=D) (spam_probability o) (elems pad) msg.
  Proof.
    intros Hk [(ws&Nd&Hlen&Hin) Hpad] Hr. exists ws. split_and!; [done|done|].
    intros v Hv. split; [by apply Hin|].
    destruct (matched_spam_probability it Hit false _ _ Hm (few_messages h ms Hm Hb) v) as (p&Ep&_).
    exists p. split; [done|]. split.
    - pose proof (word_side it Hit h ms Hm Hb pad b k ltac:(lia) Hpad v p (Hin v Hv) Ep) as Hs.
      pose proof (side_low k ltac:(lia)) as Hl. unfold q0 in Hl.
      destruct (matched_spam_probability it Hit false _ _ Hm (few_messages h ms Hm Hb) v) as (p'&Hp'&Rp&_).
      rewrite Ep in Hp'. injection Hp' as <-. apply strong_far; [pose proof u_pos; lra|].
      destruct b; unfold side in Hs; [eapply Rle_trans; [|apply Rle_abs]; lra|].
      rewrite <- Rabs_Ropp. eapply Rle_trans; [|apply Rle_abs]. lra.
    - intros w q Hw _ Eq. by apply (rare_weaker b k pad v w p q Hk Hpad (Hr w Hw) (Hin v Hv) Ep Eq).
  Qed.

  Lemma padding_takes_over b k (pad msg s : stream) : Forall (fun m => WNone ∉ m.1) ms -> one_type false (elems s) ->
    (1 <= k <= 100000)%Z -> good_words b k ms (elems pad) -> rarer_than k ms (elems msg) ->
    padded_with (elems pad) (elems msg) (elems s) ->
    exists o1 o2 p ev, spamprob_evidence mem_backend it pad o = (o1, Ok (p, ev)) /\
      spamprob_evidence mem_backend it s o = (o2, Ok (p, ev)) /\
      9 / 10 < (if b then p else 1 - p) /\ classify D p = (if b then spam else ham).
  Proof.
    intros Hnone Hty Hk Hgood Hrare Hpw. pose proof (few_messages h ms Hm Hb) as Hfew.
    destruct (score_returns_b64 it Hit false _ _ Hm Hfew s Hnone Hty) as (o2&p&ev&E2).
    assert (one_type false (elems pad)) as Hty'.
    { intros w1 w2 H1 H2. apply Hty; apply Hpw; by left. }
    destruct Hgood as [(ws&Nd&Hlen&Hin) Hpad].
    destruct ws as [|w1 [|w2 ws]]; simpl in Hlen; [lia|lia|].
    assert (w1 <> w2) as Hne. { apply NoDup_cons in Nd as [Hn _]. intros ->. apply Hn. left. }
    destruct (such_words it Hit h ms Hm Hb Hnone pad Hty' b w1 w2) as (o1&p1&ev1&E1&Hp&Hcl).
    { apply Hin. left. } { apply Hin. right. left. } { done. }
    { intros w Hw. destruct (Hpad w Hw) as [A1 A2]. split; [done|lia]. }
    pose proof (score_drown mnum_total it it it h pad msg s (p, ev) Hit Hit Hit Hpw) as Hd.
    rewrite E2 in Hd. specialize (Hd (good_outweighs b k pad (elems msg) Hk (conj (ex_intro _ (w1 :: w2 :: ws) (conj Nd (conj Hlen Hin))) Hpad) Hrare) eq_refl).
    rewrite E1 in Hd. simpl in Hd. injection Hd as -> ->. exists o1, o2, p, ev. done.
  Qed.
End double.

(** ** A case: 150 words of ham learned twice, two words of spam learned once *)
Definition ham_words : list pyword := (fun i => WStr [N.of_nat i]) <$> seq 200 150.
Definition spam_words : list pyword := [WStr (str "buy"); WStr (str "pills")].
Definition drown_ms : list message := [(spam_words, true); (ham_words, false); (ham_words, false)].
Definition drown_calls : list call := [CLearn (SList ham_words) false; CLearn (SList ham_words) false; CLearn (SList spam_words) true].

Lemma drown_matched : matched false drown_calls drown_ms.
Proof.
  apply (matched_learn false [CLearn (SList ham_words) false; CLearn (SList ham_words) false] _ (SList spam_words) true spam_words); [|done].
  apply (matched_learn false [CLearn (SList ham_words) false] _ (SList ham_words) false ham_words); [|done].
  apply (matched_learn false [] [] (SList ham_words) false ham_words); [constructor|done].
Qed.
Lemma drown_few : (Z.of_nat (length drown_calls) < 2 ^ 48)%Z.
Proof. done. Qed.
Lemma drown_none : Forall (fun m => WNone ∉ m.1) drown_ms.
Proof. apply (bool_decide_unpack _). by vm_compute. Qed.
Lemma drown_type : one_type false (elems (SList (spam_words ++ ham_words))).
Proof.
  assert (Forall (fun w => wkind w = wkind (WStr [])) (spam_words ++ ham_words)) as H by (apply (bool_decide_unpack _); by vm_compute).
  rewrite Forall_forall in H. intros w1 w2 H1 H2. by rewrite (H w1), (H w2).
Qed.
Lemma drown_good : good_words false 2 drown_ms ham_words.
Proof.
  split.
  - exists ham_words. split_and!; [|vm_compute; lia|done]. apply (bool_decide_unpack _). by vm_compute.
  - assert (Forall (fun w => containing true w drown_ms = 0%Z /\ containing false w drown_ms = 2%Z) ham_words) as H
      by (apply (bool_decide_unpack _); by vm_compute).
    rewrite Forall_forall in H. intros w Hw. destruct (H w Hw) as [H1 H2]. split; cbn [negb]; lia.
Qed.
Lemma spam_words_in w : w ∈ spam_words -> containing true w drown_ms = 1%Z /\ containing false w drown_ms = 0%Z.
Proof.
  assert (Forall (fun w => containing true w drown_ms = 1%Z /\ containing false w drown_ms = 0%Z) spam_words) as H
    by (apply (bool_decide_unpack _); by vm_compute).
  rewrite Forall_forall in H. auto.
Qed.
Lemma drown_rare : rarer_than 2 drown_ms spam_words.
Proof. intros w Hw. destruct (spam_words_in w Hw). lia. Qed.
Lemma drown_padded : padded_with ham_words spam_words (spam_words ++ ham_words).
Proof. intros w. rewrite elem_of_app. tauto. Qed.

(** A message that is classified as spam is classified as ham once further words are added. *)
Lemma drowned {M : machine} : exists h s t o1 o2 p1 p2 ev1 ev2, (forall w, w ∈ elems s -> w ∈ elems t) /\
  spamprob_evidence mem_backend remove_dups s (fst (run mem_backend remove_dups h (c_new false ∅ : dobj))) = (o1, Ok (p1, ev1)) /\
  spamprob_evidence mem_backend remove_dups t (fst (run mem_backend remove_dups h (c_new false ∅ : dobj))) = (o2, Ok (p2, ev2)) /\
  classify D p1 = spam /\ classify D p2 = ham.
Proof.
  exists drown_calls, (SList spam_words), (SList (spam_words ++ ham_words)).
  destruct (such_words remove_dups dups_ok drown_calls drown_ms drown_matched drown_few drown_none (SList spam_words)) with (b := true) (w1 := WStr (str "buy")) (w2 := WStr (str "pills"))
    as (o1&p1&ev1&E1&_&C1).
  { intros w1 w2 H1 H2. apply drown_type; cbn [elems]; apply elem_of_app; by left. }
  { cbn [elems]. left. } { cbn [elems]. right. left. } { apply (bool_decide_unpack _). by vm_compute. }
  { intros w Hw. destruct (spam_words_in w Hw). split; cbn [negb]; lia. }
  destruct (padding_takes_over remove_dups dups_ok drown_calls drown_ms drown_matched drown_few false 2 (SList ham_words) (SList spam_words)
    (SList (spam_words ++ ham_words)) drown_none drown_type ltac:(lia) drown_good drown_rare drown_padded) as (_&o2&p2&ev2&_&E2&_&C2).
  exists o1, o2, p1, p2, ev1, ev2. split_and!; [|done..].
  intros w Hw. cbn [elems]. apply elem_of_app. by left.
Qed.

(** The words of ham outweigh the words of spam. *)
Lemma drown_outweighs {M : machine} : outweighs (A:=D) (spam_probability (fst (run mem_backend remove_dups drown_calls (c_new false ∅ : dobj)))) ham_words spam_words.
Proof.
  exact (good_outweighs remove_dups dups_ok drown_calls drown_ms drown_matched drown_few false 2 (SList ham_words) spam_words ltac:(lia) drown_good drown_rare).
Qed.
