(** * A word that is a clue for one classifier only, and examples *)
From Coq Require Import Reals Lra Lia String.
From Flocq Require Import Core.
From Verif Require Import Py NumModel ClassifierModel TrainSpec TrainProofs ScoreProofs ScoreSpec ClueProofs TileProofs RealModel RealSpec
  RealProofs ExactProofs ApiProofs FloatProofs FloatApiProofs OnceCases SwaySpec ShelveApiProofs PadCases SwayProofs SwayCases FormulaProofs MirrorSpec MirrorProofs.
Local Open Scope R_scope.

(** ** Rounding by computation *)
Lemma scaled x m k : (2 ^ 52 < m < 2 ^ 53 - 1)%Z -> (0 <= k <= 1000)%Z ->
  Rabs (x * IZR (2 ^ k) - IZR m) <= 1 / 2 ->
  cexp radix2 (FLT_exp (-1074) 53) x = (- k)%Z /\ bpow radix2 (- - k) = IZR (2 ^ k).
Proof.
  intros Hm Hk Hx. apply Rabs_le_inv in Hx.
  assert (IZR (2 ^ k) = bpow radix2 k) as Hp by (rewrite <- (IZR_Zpower radix2) by lia; done).
  rewrite Z.opp_involutive. split; [|done]. rewrite Hp in Hx.
  assert (IZR (2 ^ 52 + 1) <= IZR m) as H1 by (apply IZR_le; lia).
  assert (IZR m <= IZR (2 ^ 53 - 2)) as H2 by (apply IZR_le; lia).
  rewrite plus_IZR in H1. rewrite minus_IZR in H2.
  assert (IZR (2 ^ 52) = bpow radix2 52) as E52 by (rewrite <- (IZR_Zpower radix2) by lia; done).
  assert (IZR (2 ^ 53) = bpow radix2 53) as E53 by (rewrite <- (IZR_Zpower radix2) by lia; done).
  rewrite E52 in H1. rewrite E53 in H2.
  pose proof (bpow_gt_0 radix2 k) as Hk0.
  assert (mag radix2 x = (53 - k)%Z :> Z) as Hmag.
  { apply mag_unique_pos. split.
    - replace (53 - k - 1)%Z with (52 - k)%Z by lia. apply (Rmult_le_reg_r (bpow radix2 k)); [done|].
      rewrite <- bpow_plus. replace (52 - k + k)%Z with 52%Z by lia. lra.
    - apply (Rmult_lt_reg_r (bpow radix2 k)); [done|].
      rewrite <- bpow_plus. replace (53 - k + k)%Z with 53%Z by lia. lra. }
  unfold cexp. rewrite Hmag. unfold FLT_exp. lia.
Qed.

Lemma b64_value x m k : (2 ^ 52 < m < 2 ^ 53 - 1)%Z -> (0 <= k <= 1000)%Z ->
  Rabs (x * IZR (2 ^ k) - IZR m) <= 1 / 2 -> ZnearestE (x * IZR (2 ^ k)) = m -> b64 x = IZR m / IZR (2 ^ k).
Proof.
  intros Hm Hk Hx Hz. destruct (scaled x m k Hm Hk Hx) as [He Hb].
  unfold b64, round, F2R, scaled_mantissa. rewrite He, Hb, Hz. cbn [Fnum Fexp].
  unfold Rdiv. f_equal. rewrite bpow_opp. f_equal. rewrite <- (IZR_Zpower radix2) by lia. done.
Qed.

Lemma b64_near x m k : (2 ^ 52 < m < 2 ^ 53 - 1)%Z -> (0 <= k <= 1000)%Z ->
  Rabs (x * IZR (2 ^ k) - IZR m) < 1 / 2 -> b64 x = IZR m / IZR (2 ^ k).
Proof. intros Hm Hk Hx. apply b64_value; [done..|lra|]. apply Znearest_imp. lra. Qed.

Lemma b64_tie x m k : (2 ^ 52 < m < 2 ^ 53 - 1)%Z -> (0 <= k <= 1000)%Z -> Z.even m = true ->
  x * IZR (2 ^ k) = IZR m - 1 / 2 -> b64 x = IZR m / IZR (2 ^ k).
Proof.
  intros Hm Hk He Hx. apply b64_value; [done..| |]; rewrite Hx.
  - replace (IZR m - 1 / 2 - IZR m) with (- (1 / 2)) by lra. rewrite Rabs_Ropp, Rabs_pos_eq; lra.
  - assert (Zfloor (IZR m - 1 / 2) = (m - 1)%Z) as Hf by (apply Zfloor_imp; rewrite minus_IZR, plus_IZR, minus_IZR; lra).
    assert (Zceil (IZR m - 1 / 2) = m) as Hc by (apply Zceil_imp; rewrite minus_IZR; lra).
    unfold Znearest. rewrite Hf, Hc. rewrite Rcompare_Eq by (rewrite minus_IZR; lra).
    replace (Z.even (m - 1)) with false; [done|]. rewrite Z.even_sub, He. done.
Qed.

Lemma b64_opp x : b64 (- x) = - b64 x.
Proof. apply round_NE_opp. Qed.

(** Rounding of values below one thousand on every machine *)
Lemma near_value {M : machine} x m k : (2 ^ 52 < m < 2 ^ 53 - 1)%Z -> (0 <= k <= 1000)%Z -> Rabs x <= 1000 ->
  Rabs (x * IZR (2 ^ k) - IZR m) < 1 / 2 -> mrnd x = IZR m / IZR (2 ^ k).
Proof. intros Hm Hk Hb Hx. rewrite (mb x 1000) by (done || lra). by apply b64_near. Qed.
Lemma tie_value {M : machine} x m k : (2 ^ 52 < m < 2 ^ 53 - 1)%Z -> (0 <= k <= 1000)%Z -> Rabs x <= 1000 -> Z.even m = true ->
  x * IZR (2 ^ k) = IZR m - 1 / 2 -> mrnd x = IZR m / IZR (2 ^ k).
Proof. intros Hm Hk Hb He Hx. rewrite (mb x 1000) by (done || lra). by apply b64_tie. Qed.

Ltac small := apply Rabs_le; lra.
Ltac pow2 k := let v := eval vm_compute in (2 ^ k)%Z in change (2 ^ k)%Z with v.
Ltac near x m k := rewrite (near_value x m k); [pow2 k|lia|lia|small|pow2 k; apply Rabs_lt; lra].
Ltac tie x m k := rewrite (tie_value x m k); [pow2 k|lia|lia|small|done|pow2 k; lra].

(** ** 6 of 158 spam messages and 3 of 121 ham messages: 0.6000000000000001;
    the other way round: 0.4 *)
Lemma above_prob {M : machine} : prob_formula (A := mnum M) 158 121 (WI 6 3) = Ok (5404319552844596 / 9007199254740992).
Proof.
  unfold prob_formula. cbn [spamcount hamcount Z.eqb Z.ltb Z.compare Pos.compare Pos.compare_cont Pos.eqb].
  unfold UNKNOWN_WORD_STRENGTH, UNKNOWN_WORD_PROB. cbn [ndivZ nadd neq ndiv nmul nZ nQ mnum].
  rewrite mhalf, !mZ by done. change (3 + 6)%Z with 9%Z.
  near (3 / 121) 7146207673182936%Z 58%Z.
  near (6 / 158) 5472728661108451%Z 57%Z.
  tie ((7146207673182936 / 288230376151711744) + (5472728661108451 / 144115188075855872)) 4522916248849960%Z 56%Z.
  near (45 / 100) 8106479329266893%Z 54%Z.
  assert (reqb (4522916248849960 / 72057594037927936) 0 = false) as -> by (unfold reqb; destruct (Req_EM_T _ _); [lra|done]).
  near ((5472728661108451 / 144115188075855872) / (4522916248849960 / 72057594037927936)) 5449355549118300%Z 53%Z.
  near ((8106479329266893 / 18014398509481984) * (1 / 2)) 8106479329266893%Z 55%Z.
  tie (9 * (5449355549118300 / 9007199254740992)) 6130524992758088%Z 50%Z.
  near ((8106479329266893 / 36028797018963968) + (6130524992758088 / 1125899906842624)) 6383852471797678%Z 50%Z.
  near ((8106479329266893 / 18014398509481984) + 9) 5319877059831398%Z 49%Z.
  near ((6383852471797678 / 1125899906842624) / (5319877059831398 / 562949953421312)) 5404319552844596%Z 53%Z.
  done.
Qed.

Lemma above_strong {M : machine} : strong (A := mnum M) (5404319552844596 / 9007199254740992) = true.
Proof.
  unfold strong, strength, nge. cbn [nabs nsub nQ nlt mnum]. rewrite mhalf.
  near (1 / 10) 7205759403792794%Z 56%Z.
  near ((5404319552844596 / 9007199254740992) - 1 / 2) 7205759403792800%Z 56%Z.
  rewrite Rabs_pos_eq by lra. unfold rltb. destruct (Rlt_dec _ _); [lra|done].
Qed.

Lemma below_prob {M : machine} : prob_formula (A := mnum M) 121 158 (WI 3 6) = Ok (7205759403792794 / 18014398509481984).
Proof.
  unfold prob_formula. cbn [spamcount hamcount Z.eqb Z.ltb Z.compare Pos.compare Pos.compare_cont Pos.eqb].
  unfold UNKNOWN_WORD_STRENGTH, UNKNOWN_WORD_PROB. cbn [ndivZ nadd neq ndiv nmul nZ nQ mnum].
  rewrite mhalf, !mZ by done. change (6 + 3)%Z with 9%Z.
  near (6 / 158) 5472728661108451%Z 57%Z.
  near (3 / 121) 7146207673182936%Z 58%Z.
  tie ((5472728661108451 / 144115188075855872) + (7146207673182936 / 288230376151711744)) 4522916248849960%Z 56%Z.
  near (45 / 100) 8106479329266893%Z 54%Z.
  assert (reqb (4522916248849960 / 72057594037927936) 0 = false) as -> by (unfold reqb; destruct (Req_EM_T _ _); [lra|done]).
  near ((7146207673182936 / 288230376151711744) / (4522916248849960 / 72057594037927936)) 7115687411245383%Z 54%Z.
  near ((8106479329266893 / 18014398509481984) * (1 / 2)) 8106479329266893%Z 55%Z.
  near (9 * (7115687411245383 / 18014398509481984)) 8005148337651056%Z 51%Z.
  near ((8106479329266893 / 36028797018963968) + (8005148337651056 / 2251799813685248)) 8511803295730237%Z 51%Z.
  near ((8106479329266893 / 18014398509481984) + 9) 5319877059831398%Z 49%Z.
  near ((8511803295730237 / 2251799813685248) / (5319877059831398 / 562949953421312)) 7205759403792794%Z 54%Z.
  done.
Qed.

Lemma below_strong {M : machine} : strong (A := mnum M) (7205759403792794 / 18014398509481984) = false.
Proof.
  unfold strong, strength, nge. cbn [nabs nsub nQ nlt mnum]. rewrite mhalf.
  near (1 / 10) 7205759403792794%Z 56%Z.
  replace ((7205759403792794 / 18014398509481984) - 1 / 2) with (- (1 / 2 - (7205759403792794 / 18014398509481984))) by lra.
  rewrite (mb _ 1), b64_opp; [|apply Rabs_le; lra|lra]. rewrite <- (mb (1 / 2 - (7205759403792794 / 18014398509481984)) 1); [|apply Rabs_le; lra|lra]. rewrite Rabs_Ropp.
  near (1 / 2 - (7205759403792794 / 18014398509481984)) 7205759403792792%Z 56%Z.
  rewrite Rabs_pos_eq by lra. unfold rltb. destruct (Rlt_dec _ _); [done|lra].
Qed.


(** ** The messages *)
Local Notation word := (WStr (str "offer")).
Definition border : list message :=
  replicate 6 ([word], true) ++ replicate 152 ([], true) ++ replicate 3 ([word], false) ++ replicate 118 ([], false).
Definition border_calls : list call := (fun m => CLearn (SList m.1) m.2) <$> reverse border.

Lemma learned_matched (ms : list message) : matched false ((fun m => CLearn (SList m.1) m.2) <$> reverse ms) ms.
Proof.
  induction ms as [|[ws b] ms IH]; [constructor|]. rewrite reverse_cons, fmap_app. cbn [fmap list_fmap fst snd].
  by apply (matched_learn _ _ ms (SList ws) b ws).
Qed.
Lemma border_counts : total true border = 158%Z /\ total false border = 121%Z /\ containing true word border = 6%Z /\ containing false word border = 3%Z /\
  length border = 279%nat.
Proof. vm_compute. split_and!; reflexivity. Qed.
Lemma border_none : Forall (fun m => WNone ∉ m.1) border.
Proof.
  unfold border. rewrite !Forall_app. split_and!; apply Forall_replicate; cbn; try apply not_elem_of_nil;
    intros [E|[]%elem_of_nil]%elem_of_cons; done.
Qed.
Lemma border_bounded : bounded_set border.
Proof. unfold bounded_set. destruct border_counts as (_&_&_&_&->). lia. Qed.
Lemma mirrored_length (ms : list message) : length (mirrored ms) = length ms.
Proof. unfold mirrored. apply fmap_length. Qed.
Lemma mirrored_none (ms : list message) : Forall (fun m => WNone ∉ m.1) ms -> Forall (fun m => WNone ∉ m.1) (mirrored ms).
Proof. intros H. unfold mirrored. by apply Forall_fmap. Qed.

Lemma one_score p : 0 < p < 1 -> combined_score [p] = p.
Proof.
  intros Hp. unfold combined_score, indicator_S, indicator_H, fisher. simpl.
  unfold chi_tail. simpl. rewrite !Rplus_0_r, !Ropp_involutive, !exp_ln by lra. field.
Qed.

Lemma none_score : combined_score [] = 1 / 2.
Proof. unfold combined_score, indicator_S, indicator_H. cbn. lra. Qed.

Section border.
  Context (M : machine) (it : set_order) (Hit : set_order_ok it).
  Notation new := (c_new false ∅ : obj (mnum M) (gmap pyword winfo)).

  Lemma border_prob : spam_probability (fst (run mem_backend it border_calls new)) word = Ok (5404319552844596 / 9007199254740992).
  Proof.
    destruct (matched_view it Hit false border_calls border (learned_matched border)) as (T1&T2&T3).
    destruct border_counts as (C1&C2&C3&C4&_).
    unfold spam_probability. rewrite T1, T2, T3. unfold expected_record. rewrite C1, C2, C3, C4. apply above_prob.
  Qed.
  Lemma border_prob' : spam_probability (fst (run mem_backend it (opposite <$> border_calls) new)) word = Ok (7205759403792794 / 18014398509481984).
  Proof.
    destruct (matched_view it Hit false (opposite <$> border_calls) (mirrored border) (mirrored_matched _ _ _ (learned_matched border))) as (T1&T2&T3).
    destruct border_counts as (C1&C2&C3&C4&_).
    unfold spam_probability. rewrite T1, T2, T3. unfold expected_record. rewrite !mirrored_total, !mirrored_containing. cbn [negb]. rewrite C1, C2, C3, C4. apply below_prob.
  Qed.

  Lemma border_scores : exists o1 p1 ev1 o2 p2 ev2,
    spamprob_evidence mem_backend it (SList [word]) (fst (run mem_backend it border_calls new)) = (o1, Ok (p1, ev1)) /\
    spamprob_evidence mem_backend it (SList [word]) (fst (run mem_backend it (opposite <$> border_calls) new)) = (o2, Ok (p2, ev2)) /\
    (drop 2 ev1).*1 = [word] /\ drop 2 ev2 = [] /\ 59 / 100 <= p1 <= 61 / 100 /\ 49 / 100 <= p2 <= 51 / 100.
  Proof.
    assert (one_type false (elems (SList [word]))) as Ht.
    { intros w1 w2 ->%elem_of_list_singleton ->%elem_of_list_singleton. done. }
    pose proof (learned_matched border) as Hm. pose proof (mirrored_matched _ _ _ Hm) as Hm'.
    pose proof border_bounded as Hb. assert (bounded_set (mirrored border)) as Hb' by (unfold bounded_set; by rewrite mirrored_length).
    destruct (score_returns_b64 it Hit false border_calls border Hm Hb (SList [word]) border_none Ht) as (o1&p1&ev1&E1).
    destruct (score_returns_b64 it Hit false _ (mirrored border) Hm' Hb' (SList [word]) (mirrored_none _ border_none) Ht) as (o2&p2&ev2&E2).
    pose proof (score_matched it Hit false _ _ _ p1 ev1 o1 Hm Hb E1) as P1.
    pose proof (score_matched it Hit false _ _ _ p2 ev2 o2 Hm' Hb' E2) as P2.
    destruct (clues_uni mnum_total it Hit _ (SList [word]) _ _ o1 E1) as (e1&e1'&u1&->&N1&_&I1&O1).
    destruct (clues_uni mnum_total it Hit _ (SList [word]) _ _ o2 E2) as (e2&e2'&u2&->&N2&_&I2&O2).
    cbn [drop] in *. rewrite drop_0 in *.
    assert (u1 = [(word, 5404319552844596 / 9007199254740992)]) as ->.
    { assert (forall x, x ∈ u1 -> x = (word, 5404319552844596 / 9007199254740992)) as Hall.
      { intros [w q] Hx. destruct (I1 w q Hx) as (Hw&Hq&_). apply elem_of_list_singleton in Hw as ->. rewrite border_prob in Hq. by injection Hq as <-. }
      destruct u1 as [|x u1].
      - exfalso. destruct (O1 word _ ltac:(left) ltac:(apply not_elem_of_nil) border_prob) as [H|[H _]]; [|done]. by rewrite above_strong in H.
      - rewrite (Hall x) in * by left. destruct u1 as [|y u1]; [done|]. rewrite (Hall y) in N1 by (right; left).
        apply NoDup_cons in N1 as [N1 _]. destruct N1. left. }
    assert (u2 = []) as ->.
    { destruct u2 as [|[w q] u2]; [done|]. exfalso. destruct (I2 w q ltac:(left)) as (Hw&Hq&Hs). apply elem_of_list_singleton in Hw as ->.
      pose proof (eq_trans (eq_sym border_prob') Hq) as Hq'. injection Hq' as <-. by rewrite below_strong in Hs. }
    exists o1, p1, (e1 :: e1' :: [(word, 5404319552844596 / 9007199254740992)]), o2, p2, [e2; e2'].
    split_and!; try done.
    - cbn [fmap list_fmap snd] in P1. rewrite one_score in P1 by lra. unfold tol in P1. apply Rabs_le_inv in P1. lra.
    - cbn [fmap list_fmap snd] in P1. rewrite one_score in P1 by lra. unfold tol in P1. apply Rabs_le_inv in P1. lra.
    - assert (Rabs (p2 - combined_score []) <= tol) as P2' by exact P2. clear P2. rename P2' into P2. rewrite none_score in P2. unfold tol in P2. apply Rabs_le_inv in P2. lra.
    - assert (Rabs (p2 - combined_score []) <= tol) as P2' by exact P2. clear P2. rename P2' into P2. rewrite none_score in P2. unfold tol in P2. apply Rabs_le_inv in P2. lra.
  Qed.
End border.

Lemma mirror_refuted (M : machine) : ~ forall it h ms s o1 p1 ev1 o2 p2 ev2,
  set_order_ok it -> matched false h ms -> Forall (fun m => WNone ∉ m.1) ms -> one_type false (elems s) ->
  spamprob_evidence mem_backend it s (fst (run mem_backend it h (c_new false ∅ : obj (mnum M) (gmap pyword winfo)))) = (o1, Ok (p1, ev1)) ->
  spamprob_evidence mem_backend it s (fst (run mem_backend it (opposite <$> h) (c_new false ∅ : obj (mnum M) (gmap pyword winfo)))) = (o2, Ok (p2, ev2)) ->
  Rabs (p2 - (1 - p1)) < 8 / 100.
Proof.
  intros H. destruct (border_scores M remove_dups dups_ok) as (o1&p1&ev1&o2&p2&ev2&E1&E2&_&_&P1&P2).
  pose proof (H remove_dups border_calls border (SList [word]) o1 p1 ev1 o2 p2 ev2 dups_ok (learned_matched border) border_none) as HR.
  assert (Rabs (p2 - (1 - p1)) < 8 / 100) as Hb.
  { refine (HR _ E1 E2). intros w1 w2 ->%elem_of_list_singleton ->%elem_of_list_singleton. done. }
  apply Rabs_def2 in Hb. lra.
Qed.

(** ** Two messages *)
Lemma robinson_one : robinson 1 1 0 1 = 49 / 58.
Proof. unfold robinson, spam_share, fraction, nonempty_total. cbn [Z.eqb]. change (0 + 1)%Z with 1%Z. field. Qed.
Lemma robinson_both : robinson 1 1 1 1 = 1 / 2.
Proof. unfold robinson, spam_share, fraction, nonempty_total. cbn [Z.eqb]. change (1 + 1)%Z with 2%Z. field. Qed.
Lemma robinson_other : robinson 0 1 1 1 = 9 / 58.
Proof. unfold robinson, spam_share, fraction, nonempty_total. cbn [Z.eqb]. change (1 + 0)%Z with 1%Z. field. Qed.
Lemma two_clear : clear_cut two_msgs [sw "pills"; sw "the"; sw "lunch"; sw "other"] /\ few_clues two_msgs [sw "pills"; sw "the"; sw "lunch"; sw "other"].
Proof.
  split.
  - assert (forall a b c d n, containing true a two_msgs = b -> containing false a two_msgs = c ->
      bool_decide (b + c = 0)%Z = d -> robinson b 1 c 1 = n -> formula two_msgs a = if d then 1 / 2 else n) as Hf.
    { intros a b c d n <- <- <- <-. done. }
    intros w. rewrite !elem_of_cons, elem_of_nil. intros [-> | [-> | [-> | [-> | []]]]].
    + rewrite (Hf _ 1%Z 0%Z false (49 / 58)); [..|exact robinson_one]; try reflexivity.
      right. rewrite Rabs_pos_eq; lra.
    + rewrite (Hf _ 1%Z 1%Z false (1 / 2)); [..|exact robinson_both]; try reflexivity.
      left. rewrite Rminus_diag_eq, Rabs_R0 by done. lra.
    + rewrite (Hf _ 0%Z 1%Z false (9 / 58)); [..|exact robinson_other]; try reflexivity.
      right. rewrite Rabs_left; lra.
    + assert (formula two_msgs (sw "other") = 1 / 2) as -> by (unfold formula; rewrite bool_decide_eq_true_2; [done|by vm_compute]).
      left. rewrite Rminus_diag_eq, Rabs_R0 by done. lra.
  - intros l Hnd Hl. transitivity (length [sw "pills"; sw "the"; sw "lunch"; sw "other"]); [|simpl; lia].
    apply submseteq_length, NoDup_submseteq; [done|]. intros w Hw. by apply Hl.
Qed.
Lemma four_type : one_type false [sw "pills"; sw "the"; sw "lunch"; sw "other"].
Proof.
  assert (forall w, w ∈ [sw "pills"; sw "the"; sw "lunch"; sw "other"] -> wkind w = wkind (sw "the")) as H.
  { intros w. rewrite !elem_of_cons, elem_of_nil. by intros [-> | [-> | [-> | [-> | []]]]]. }
  intros w1 w2 H1 H2. by rewrite (H w1), (H w2).
Qed.
