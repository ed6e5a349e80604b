(** * Lemmas about the numeric part (C09, C10, C14, C17 - C19) *)
From Coq Require Import Reals Lra Lia.
From Flocq Require Import Core.
From Verif Require Import Py NumModel ClassifierModel RealModel RealSpec.
Local Open Scope R_scope.

(** ** The arithmetic *)
Lemma rltb_true x y : rltb x y = true <-> x < y.
Proof. unfold rltb. destruct (Rlt_dec x y); split; done. Qed.
Lemma rltb_false x y : rltb x y = false <-> y <= x.
Proof. unfold rltb. destruct (Rlt_dec x y); split; try done; try lra. Qed.
Lemma reqb_true x y : reqb x y = true <-> x = y.
Proof. unfold reqb. destruct (Req_EM_T x y); split; done. Qed.
Lemma reqb_false x y : reqb x y = false <-> x <> y.
Proof. unfold reqb. destruct (Req_EM_T x y); split; done. Qed.

Lemma rnum_total rnd : total_num (rnum rnd).
Proof.
  constructor; simpl.
  - apply reqb_true.
  - intros x. apply rltb_false. lra.
  - intros x y z. rewrite !rltb_true. lra.
  - intros x y. rewrite !rltb_false. lra.
Qed.

Lemma rounding_exact : rounding (fun x => x).
Proof. by constructor. Qed.

Local Instance prec53 : Prec_gt_0 53.
Proof. by unfold Prec_gt_0. Qed.

Lemma b64_IZR z : (Z.abs z <= 2 ^ 53)%Z -> b64 (IZR z) = IZR z.
Proof.
  intros Hz. unfold b64. apply round_generic; [apply valid_rnd_N|].
  apply generic_format_FLT.
  destruct (Z.eq_dec (Z.abs z) (2 ^ 53)) as [He|Hne].
  - apply (FLT_spec _ _ _ _ (Float radix2 (Z.sgn z) 53)).
    + unfold F2R. cbn [Fnum Fexp].
      rewrite <- (IZR_Zpower radix2 53) by lia. rewrite <- mult_IZR. f_equal.
      change (Zpower radix2 53) with (2 ^ 53)%Z. lia.
    + cbn [Fnum]. change (Zpower radix2 53) with (2 ^ 53)%Z. destruct z; simpl; lia.
    + cbn [Fexp]. lia.
  - apply (FLT_spec _ _ _ _ (Float radix2 z 0)).
    + unfold F2R. simpl. lra.
    + cbn [Fnum]. change (Zpower radix2 53) with (2 ^ 53)%Z. lia.
    + cbn [Fexp]. lia.
Qed.

Lemma rounding_b64 : rounding b64.
Proof.
  assert (Valid_exp (FLT_exp (-1074) 53)) as Hv by apply FLT_exp_valid, prec53.
  constructor.
  - intros x y. by apply round_le; [|apply valid_rnd_N].
  - intros x. unfold b64. apply round_generic; [apply valid_rnd_N|].
    apply generic_format_round; [done|apply valid_rnd_N].
  - apply (b64_IZR 0). lia.
  - apply (b64_IZR 1). lia.
  - apply (b64_IZR (-1)). lia.
  - apply (b64_IZR 2). lia.
  - apply (b64_IZR (-2)). lia.
  - unfold b64. apply round_generic; [apply valid_rnd_N|].
    apply generic_format_FLT. apply (FLT_spec _ _ _ _ (Float radix2 1 (-1))).
    + unfold F2R. simpl. lra.
    + cbn [Fnum]. change (Zpower radix2 53) with (2 ^ 53)%Z. lia.
    + cbn [Fexp]. lia.
Qed.

Lemma Ok3_inj {T} (a b c a' b' c' : T) :
  Ok (a, b, c) = Ok (a', b', c') -> a = a' /\ b = b' /\ c = c'.
Proof. intros H. by inversion H. Qed.

(** ** Ranges under rounding *)
Section range.
  Context (rnd : R -> R) (Hr : rounding rnd).
  Notation A := (rnum rnd).

  Lemma rnd_ge0 x : 0 <= x -> 0 <= rnd x.
  Proof. intros H. rewrite <- (rnd_0 rnd Hr). by apply (rnd_mono rnd Hr). Qed.
  Lemma rnd_le0 x : x <= 0 -> rnd x <= 0.
  Proof. intros H. rewrite <- (rnd_0 rnd Hr). by apply (rnd_mono rnd Hr). Qed.
  Lemma rnd_le1 x : x <= 1 -> rnd x <= 1.
  Proof. intros H. rewrite <- (rnd_1 rnd Hr). by apply (rnd_mono rnd Hr). Qed.
  Lemma rnd_ge1 x : 1 <= x -> 1 <= rnd x.
  Proof. intros H. rewrite <- (rnd_1 rnd Hr). by apply (rnd_mono rnd Hr). Qed.
  Lemma rnd_unit x : 0 <= x <= 1 -> 0 <= rnd x <= 1.
  Proof. intros [H1 H2]. split; [by apply rnd_ge0|by apply rnd_le1]. Qed.
  Lemma rnd_fix_le x y : rnd y = y -> x <= y -> rnd x <= y.
  Proof. intros E H. rewrite <- E. by apply (rnd_mono rnd Hr). Qed.
  Lemma rnd_fix_ge x y : rnd y = y -> y <= x -> y <= rnd x.
  Proof. intros E H. rewrite <- E. by apply (rnd_mono rnd Hr). Qed.

  Lemma div_unit x y : 0 <= x -> x <= y -> 0 < y -> 0 <= x / y <= 1.
  Proof.
    intros H1 H2 H3. split.
    - apply Rmult_le_pos; [done|]. left. by apply Rinv_0_lt_compat.
    - apply (Rmult_le_reg_r y); [done|]. unfold Rdiv. rewrite Rmult_assoc, Rinv_l by lra. lra.
  Qed.

  Lemma mul_unit x y : 0 <= x <= 1 -> 0 <= y <= 1 -> 0 <= x * y <= 1.
  Proof.
    intros H1 H2. split; [apply Rmult_le_pos; lra|].
    apply Rle_trans with (1 * 1); [apply Rmult_le_compat; lra|lra].
  Qed.

  Lemma nZ1 : nZ A 1 = 1.
  Proof. simpl. apply (rnd_1 rnd Hr). Qed.
  Lemma nZ0 : nZ A 0 = 0.
  Proof. simpl. apply (rnd_0 rnd Hr). Qed.

  Lemma prob_formula_range ns nh r p :
    (0 <= spamcount r)%Z -> (0 <= hamcount r)%Z -> (spamcount r <> 0 \/ hamcount r <> 0)%Z ->
    prob_formula (A:=A) ns nh r = Ok p -> 0 <= p <= 1.
  Proof.
    intros Hs Hh Hne. unfold prob_formula.
    set (nh' := if (nh =? 0)%Z then 1%Z else nh).
    set (ns' := if (ns =? 0)%Z then 1%Z else ns).
    assert (nh' <> 0)%Z as Nh by (unfold nh'; destruct (Z.eqb_spec nh 0); lia).
    assert (ns' <> 0)%Z as Ns by (unfold ns'; destruct (Z.eqb_spec ns 0); lia).
    destruct (Z.ltb_spec nh' (hamcount r)) as [?|Lh]; [done|].
    destruct (Z.ltb_spec ns' (spamcount r)) as [?|Ls]; [done|].
    cbn [ndivZ nadd neq ndiv nmul nZ rnum].
    set (hr := rnd (IZR (hamcount r) / IZR nh')).
    set (sr := rnd (IZR (spamcount r) / IZR ns')).
    assert (0 <= hr) as Hhr.
    { apply rnd_ge0, Rmult_le_pos; [by apply IZR_le|]. left. apply Rinv_0_lt_compat, IZR_lt. lia. }
    assert (0 <= sr) as Hsr.
    { apply rnd_ge0, Rmult_le_pos; [by apply IZR_le|]. left. apply Rinv_0_lt_compat, IZR_lt. lia. }
    assert (sr <= rnd (hr + sr)) as Hle.
    { apply rnd_fix_ge; [apply (rnd_idem rnd Hr)|lra]. }
    rewrite (rnd_0 rnd Hr).
    destruct (reqb (rnd (hr + sr)) 0) eqn:E; [done|]. apply reqb_false in E. intros [= <-].
    apply rnd_unit.
    assert (0 <= rnd (sr / rnd (hr + sr)) <= 1) as [Q1 Q2].
    { apply rnd_unit, div_unit; lra. }
    set (q := rnd (sr / rnd (hr + sr))) in *.
    set (n := rnd (IZR (hamcount r + spamcount r))).
    assert (1 <= n) as Hn. { apply rnd_ge1. apply IZR_le. lia. }
    unfold UNKNOWN_WORD_STRENGTH, UNKNOWN_WORD_PROB. cbn [nQ rnum].
    set (s := rnd (45 / 100)).
    assert (0 <= s) as Hs0 by (apply rnd_ge0; lra).
    assert (rnd (1 / 2) = 1 / 2) as -> by apply (rnd_half rnd Hr).
    assert (0 <= rnd (s * (1 / 2)) <= s) as [X1 X2].
    { split; [apply rnd_ge0; lra|]. apply rnd_fix_le; [apply (rnd_idem rnd Hr)|lra]. }
    assert (0 <= rnd (n * q) <= n) as [Y1 Y2].
    { split; [apply rnd_ge0, Rmult_le_pos; lra|].
      apply rnd_fix_le; [apply (rnd_idem rnd Hr)|]. rewrite <- (Rmult_1_r n) at 2.
      apply Rmult_le_compat_l; lra. }
    apply div_unit.
    - apply rnd_ge0. lra.
    - apply (rnd_mono rnd Hr). lra.
    - apply Rlt_le_trans with n; [lra|]. apply rnd_fix_ge; [apply (rnd_idem rnd Hr)|lra].
  Qed.

  Lemma chi_loop_ge0 k : forall i m term result, (0 < i)%Z -> 0 <= m -> 0 <= term -> 0 <= result ->
    0 <= chi_loop A k i m term result.
  Proof.
    induction k as [|k IH]; intros i m term result Hi Hm Ht Hres; simpl; [done|].
    assert (0 <= rnd (term * rnd (m / rnd (IZR i)))) as Ht'.
    { apply rnd_ge0, Rmult_le_pos; [done|]. apply rnd_ge0, Rmult_le_pos; [done|].
      left. apply Rinv_0_lt_compat. apply Rlt_le_trans with 1; [lra|]. apply rnd_ge1, IZR_le. lia. }
    apply IH; [lia|done|done|]. apply rnd_ge0. lra.
  Qed.

  Lemma even_land v : (Z.land (2 * v) 1 =? 0)%Z = true.
  Proof.
    apply Z.eqb_eq. change 1%Z with (Z.ones 1). rewrite Z.land_ones by lia.
    rewrite Z.mul_comm. apply Z.mod_mul. done.
  Qed.

  Lemma chi2Q_range x2 v : 0 <= x2 -> exists q, chi2Q A x2 (2 * v) = Ok q /\ 0 <= q <= 1.
  Proof.
    intros Hx. unfold chi2Q. rewrite even_land. cbn [negb]. cbv zeta.
    set (res := chi_loop _ _ _ _ _ _).
    assert (0 <= res) as Hres.
    { apply chi_loop_ge0.
      - lia.
      - cbn [ndiv nZ rnum]. apply rnd_ge0, Rmult_le_pos; [done|]. left.
        apply Rinv_0_lt_compat. rewrite (rnd_2 rnd Hr). lra.
      - cbn [nexp rnum]. apply rnd_ge0. left. apply exp_pos.
      - cbn [nexp rnum]. apply rnd_ge0. left. apply exp_pos. }
    cbn [nlt nQ rnum]. replace (IZR 1 / IZR 1) with 1 by lra. rewrite (rnd_1 rnd Hr).
    destruct (rltb 1 res) eqn:E.
    - exists 1. split; [done|lra].
    - apply rltb_false in E. exists res. split; [done|lra].
  Qed.

  Definition acc_ok (a : acc4 A) : Prop :=
    0 <= aS A a <= 1 /\ 0 <= aH A a <= 1 /\ (aSexp A a <= 0)%Z /\ (aHexp A a <= 0)%Z.

  Lemma rfrexp_range x : 0 <= x -> x < 1 / 2 ->
    0 <= fst (rfrexp x) <= 1 /\ (snd (rfrexp x) <= 0)%Z.
  Proof.
    intros H1 H2. unfold rfrexp. destruct (reqb x 0) eqn:E; simpl.
    - split; [lra|lia].
    - apply reqb_false in E.
      assert (mag radix2 x <= -1)%Z as Hm.
      { apply mag_le_bpow; [done|]. rewrite Rabs_pos_eq by done. simpl. lra. }
      split; [|lia].
      destruct (mag radix2 x) as [e He]. simpl in *. specialize (He E).
      rewrite Rabs_pos_eq in He by done. split.
      + apply Rmult_le_pos; [done|apply bpow_ge_0].
      + apply Rle_trans with (bpow radix2 e * bpow radix2 (- e)).
        * apply Rmult_le_compat_r; [apply bpow_ge_0|lra].
        * rewrite <- bpow_plus. replace (e + - e)%Z with 0%Z by lia. simpl. lra.
  Qed.

  Lemma TINY_le_half : TINY A <= 1 / 2.
  Proof.
    unfold TINY. cbn [nQ rnum]. rewrite <- (rnd_half rnd Hr). apply (rnd_mono rnd Hr).
    unfold Rdiv. rewrite !Rmult_1_l. apply Rinv_le; [lra|].
    apply (IZR_le 2). vm_compute. discriminate.
  Qed.

  Lemma guard_range x e : 0 <= x <= 1 -> (e <= 0)%Z ->
    let g := if nlt A x (TINY A) then ((nfrexp A x).1, (e + (nfrexp A x).2)%Z) else (x, e) in
    0 <= fst g <= 1 /\ (snd g <= 0)%Z.
  Proof.
    intros Hx He. cbv zeta. destruct (nlt A x (TINY A)) eqn:E; simpl; [|done].
    apply rltb_true in E. pose proof TINY_le_half.
    destruct (rfrexp_range x) as [Hf Hz]; [lra|lra|]. split; [done|lia].
  Qed.

  Lemma score_step_ok a p : acc_ok a -> 0 <= p <= 1 -> acc_ok (score_step A a p).
  Proof.
    intros (H1&H2&H3&H4) Hp. unfold score_step.
    set (S := nmul A (aS A a) (nsub A (nZ A 1) p)). set (H := nmul A (aH A a) p).
    assert (0 <= S <= 1) as HS.
    { unfold S. cbn [nmul nsub nZ rnum]. rewrite (rnd_1 rnd Hr). apply rnd_unit.
      assert (0 <= rnd (1 - p) <= 1) by (apply rnd_unit; lra).
      by apply mul_unit. }
    assert (0 <= H <= 1) as HH.
    { unfold H. cbn [nmul rnum]. apply rnd_unit.
      by apply mul_unit. }
    destruct (guard_range S _ HS H3) as [G1 G2]. destruct (guard_range H _ HH H4) as [G3 G4].
    exact (conj G1 (conj G3 (conj G2 G4))).
  Qed.

  Lemma fold_ok ps : Forall (fun p => 0 <= p <= 1) ps -> forall a, acc_ok a ->
    acc_ok (foldl (score_step A) a ps).
  Proof.
    induction 1 as [|p ps Hp _ IH]; intros a Ha; simpl; [done|].
    apply IH. by apply score_step_ok.
  Qed.

  Lemma log_le0 (x : R) (e : Z) l : 0 <= x <= 1 -> (e <= 0)%Z -> pylog A x = Ok l ->
    nadd A l (nmul A (nZ A e) (LN2 A)) <= 0.
  Proof.
    intros Hx He. unfold pylog. destruct (nlt A (nZ A 0) x) eqn:E; [|done]. intros [= <-].
    cbn [nlt nZ rnum] in E. rewrite (rnd_0 rnd Hr) in E. apply rltb_true in E.
    cbn [nadd nmul nZ nlog rnum]. apply rnd_le0.
    assert (rnd (ln x) <= 0).
    { apply rnd_le0. destruct (Rle_lt_or_eq_dec x 1) as [L|L]; [lra| |].
      - left. rewrite <- ln_1. by apply ln_increasing.
      - rewrite L, ln_1. lra. }
    assert (0 <= LN2 A).
    { unfold LN2. cbn [nlog nZ rnum]. rewrite (rnd_2 rnd Hr). apply rnd_ge0.
      left. rewrite <- ln_1. apply ln_increasing; lra. }
    assert (rnd (IZR e) <= 0). { apply rnd_le0. by apply IZR_le. }
    assert (rnd (rnd (IZR e) * LN2 A) <= 0); [|lra].
    apply rnd_le0. replace 0 with (0 * LN2 A) by lra. by apply Rmult_le_compat_r.
  Qed.

  Lemma x2_ge0 x : x <= 0 -> 0 <= nmul A (nZ A (-2)) x.
  Proof.
    intros Hx. cbn [nmul nZ rnum]. rewrite (rnd_m2 rnd Hr). apply rnd_ge0. lra.
  Qed.

  Lemma score_probs_range (ps : list (F A)) p S H :
    Forall (fun p => 0 <= p <= 1) ps -> score_probs A ps = Ok (p, S, H) ->
    0 <= p <= 1 /\ (ps <> [] -> 0 <= S <= 1 /\ 0 <= H <= 1).
  Proof.
    intros Hps. unfold score_probs.
    assert (acc_ok (foldl (score_step A) (Acc A (nZ A 1) 0 (nZ A 1) 0) ps)) as (O1&O2&O3&O4).
    { apply fold_ok; [done|]. unfold acc_ok. cbn [aS aH aSexp aHexp]. rewrite nZ1.
      split_and!; lra || lia. }
    set (a := foldl _ _ _) in *.
    destruct (pylog A (aS A a)) as [lS|e] eqn:ES; cbn [rbind]; [|done].
    destruct (pylog A (aH A a)) as [lH|e] eqn:EH; cbn [rbind]; [|done].
    pose proof (log_le0 _ _ _ O1 O3 ES) as LS. pose proof (log_le0 _ _ _ O2 O4 EH) as LH.
    destruct (0 <? _)%Z eqn:En.
    2:{ intros (<-&_&_)%Ok3_inj. split.
        - cbn [nQ rnum]. rewrite (rnd_half rnd Hr). lra.
        - intros Hne. destruct ps; [done|]. simpl in En. apply Z.ltb_ge in En. lia. }
    destruct (chi2Q_range _ (Z.of_nat (length ps)) (x2_ge0 _ LS)) as (qS&->&QS).
    destruct (chi2Q_range _ (Z.of_nat (length ps)) (x2_ge0 _ LH)) as (qH&->&QH).
    cbn [rbind]. intros (<-&<-&<-)%Ok3_inj. cbn [ndiv nadd nsub nZ rnum].
    rewrite (rnd_1 rnd Hr), (rnd_2 rnd Hr).
    assert (0 <= rnd (1 - qS) <= 1) by (apply rnd_unit; lra).
    assert (0 <= rnd (1 - qH) <= 1) by (apply rnd_unit; lra).
    split; [|done].
    assert (-1 <= rnd (rnd (1 - qS) - rnd (1 - qH)) <= 1).
    { split; [apply rnd_fix_ge; [apply (rnd_m1 rnd Hr)|lra]|apply rnd_le1; lra]. }
    assert (0 <= rnd (rnd (rnd (1 - qS) - rnd (1 - qH)) + 1) <= 2).
    { split; [apply rnd_ge0; lra|apply rnd_fix_le; [apply (rnd_2 rnd Hr)|lra]]. }
    apply rnd_unit. lra.
  Qed.
End range.
