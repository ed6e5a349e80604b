(** * Scoring in double precision: lemmas for C89 - C91 *)
From Coq Require Import Reals Lra Lia Psatz.
From Flocq Require Import Core Relative Mult_error.
From Verif Require Import Py NumModel ClassifierModel RealModel RealSpec RealProofs ExactProofs.
Local Open Scope R_scope.

(** ** binary64 *)
Definition u : R := bpow radix2 (-53).
Definition eta : R := bpow radix2 (-1075).

Local Instance prec53 : Prec_gt_0 53.
Proof. by unfold Prec_gt_0. Qed.

Lemma u_val : u = / 9007199254740992.
Proof. unfold u. simpl. lra. Qed.

Lemma u_pos : 0 < u.
Proof. apply bpow_gt_0. Qed.

Lemma eta_pos : 0 < eta.
Proof. apply bpow_gt_0. Qed.

Lemma eta_small : eta <= u * bpow radix2 (-900).
Proof. unfold eta, u. rewrite <- bpow_plus. apply bpow_le. lia. Qed.

Lemma bpow_le1 e : (e <= 0)%Z -> bpow radix2 e <= 1.
Proof. intros H. change 1 with (bpow radix2 0). by apply bpow_le. Qed.

Lemma b64_err x : Rabs (b64 x - x) <= u * Rabs x + eta.
Proof.
  destruct (error_N_FLT radix2 (-1074) 53 ltac:(lia) (fun t => negb (Z.even t)) x) as (eps&et&H1&H2&_&E).
  change (round radix2 (FLT_exp (-1074) 53) (Znearest (fun t => negb (Z.even t))) x) with (b64 x) in E.
  rewrite E. replace (x * (1 + eps) + et - x) with (eps * x + et) by ring.
  apply Rle_trans with (1 := Rabs_triang _ _). rewrite Rabs_mult.
  apply Rplus_le_compat.
  - apply Rmult_le_compat_r; [apply Rabs_pos|]. replace u with (/ 2 * bpow radix2 (-53 + 1)); [done|].
    unfold u. simpl. lra.
  - apply Rle_trans with (1 := H2). unfold eta. change (/ 2) with (bpow radix2 (-1)).
    rewrite <- bpow_plus. apply Rle_refl.
Qed.

Lemma b64_rel x : bpow radix2 (-1022) <= Rabs x -> exists d, Rabs d <= u /\ b64 x = x * (1 + d).
Proof.
  intros H. destruct (relative_error_N_FLT_ex radix2 (-1074) 53 ltac:(lia) (fun t => negb (Z.even t)) x) as (d&H1&H2).
  - exact H.
  - exists d. split; [|exact H2]. replace u with (/ 2 * bpow radix2 (-53 + 1)); [done|].
    unfold u. simpl. lra.
Qed.

Lemma b64_bpow e : (-1074 <= e)%Z -> b64 (bpow radix2 e) = bpow radix2 e.
Proof.
  intros H. unfold b64. apply round_generic; [apply valid_rnd_N|].
  by apply generic_format_FLT_bpow.
Qed.

Lemma b64_ge_bpow e x : (-1074 <= e)%Z -> bpow radix2 e <= x -> bpow radix2 e <= b64 x.
Proof. intros He. apply (rnd_fix_ge b64 rounding_b64). by apply b64_bpow. Qed.

Lemma b64_one_minus_u : b64 (1 - u) = 1 - u.
Proof.
  unfold b64. apply round_generic; [apply valid_rnd_N|].
  apply generic_format_FLT. apply (FLT_spec _ _ _ _ (Float radix2 (2 ^ 53 - 1) (-53))).
  - unfold F2R. cbn [Fnum Fexp]. fold u. rewrite minus_IZR. rewrite u_val. simpl. lra.
  - cbn [Fnum]. change (Zpower radix2 53) with (2 ^ 53)%Z. lia.
  - cbn [Fexp]. lia.
Qed.

(** ** Relative error: x is y up to k roundings *)
Definition near (k : nat) (x y : R) : Prop := 0 <= y /\ (1 - u) ^ k * y <= x /\ x * (1 - u) ^ k <= y.

Lemma one_u : 0 < 1 - u < 1.
Proof. rewrite u_val. lra. Qed.

Lemma pow_u k : 0 < (1 - u) ^ k <= 1.
Proof.
  pose proof one_u. induction k as [|k IH]; simpl; [lra|]. split; [apply Rmult_lt_0_compat; lra|].
  apply Rle_trans with (1 * 1); [apply Rmult_le_compat; lra|lra].
Qed.

Lemma pow_u_ge k : 1 - INR k * u <= (1 - u) ^ k.
Proof.
  pose proof u_pos as Hu. induction k as [|k IH]; [simpl; lra|].
  rewrite S_INR. change ((1 - u) ^ S k) with ((1 - u) * (1 - u) ^ k). pose proof (pow_u k) as Hk. pose proof one_u as H1.
  apply Rle_trans with ((1 - u) * (1 - INR k * u)); [|apply Rmult_le_compat_l; lra].
  pose proof (pos_INR k). assert (0 <= INR k * u * u); [|lra].
  apply Rmult_le_pos; [apply Rmult_le_pos; lra|lra].
Qed.

Lemma near_refl y : 0 <= y -> near 0 y y.
Proof. intros H. unfold near. simpl. lra. Qed.

Lemma near_ge0 k x y : near k x y -> 0 <= x.
Proof.
  intros (H1&H2&_). pose proof (pow_u k). apply Rle_trans with (2 := H2). apply Rmult_le_pos; lra.
Qed.

Lemma near_weaken j k x y : (j <= k)%nat -> near j x y -> near k x y.
Proof.
  intros Hjk Hn. pose proof (near_ge0 _ _ _ Hn) as Hx. destruct Hn as (H1&H2&H3).
  replace k with (j + (k - j))%nat by lia. set (i := (k - j)%nat).
  pose proof (pow_u i) as Hi. pose proof (pow_u j) as Hj. unfold near. rewrite pow_add. split_and!; [done| |].
  - apply Rle_trans with (2 := H2). apply Rmult_le_compat_r; [done|].
    rewrite <- (Rmult_1_r ((1 - u) ^ j)) at 2. apply Rmult_le_compat_l; lra.
  - apply Rle_trans with (2 := H3). apply Rmult_le_compat_l; [done|].
    rewrite <- (Rmult_1_r ((1 - u) ^ j)) at 2. apply Rmult_le_compat_l; lra.
Qed.

Lemma near_trans j k x y z : near j x y -> near k y z -> near (j + k) x z.
Proof.
  intros Hxy Hyz. pose proof (near_ge0 _ _ _ Hxy) as Hx. destruct Hxy as (H1&H2&H3), Hyz as (H4&H5&H6).
  pose proof (pow_u j) as Hj. pose proof (pow_u k) as Hk. unfold near. rewrite pow_add. split_and!; [done| |].
  - apply Rle_trans with (2 := H2). rewrite Rmult_assoc. apply Rmult_le_compat_l; [lra|done].
  - apply Rle_trans with (2 := H6). rewrite <- Rmult_assoc. apply Rmult_le_compat_r; [lra|done].
Qed.

Lemma near_b64 x : bpow radix2 (-1022) <= x -> near 1 (b64 x) x.
Proof.
  intros Hx. assert (0 < x) as Hp by (pose proof (bpow_gt_0 radix2 (-1022)); lra).
  destruct (b64_rel x) as (d&Hd&E); [by rewrite Rabs_pos_eq by lra|].
  pose proof u_pos as Hu. pose proof one_u. apply Rabs_le_inv in Hd. unfold near. rewrite E. simpl.
  rewrite !Rmult_1_r. split_and!; [lra| |].
  - rewrite (Rmult_comm x). apply Rmult_le_compat_r; lra.
  - rewrite Rmult_assoc. rewrite <- (Rmult_1_r x) at 2. apply Rmult_le_compat_l; [lra|].
    assert ((1 + d) * (1 - u) <= (1 + u) * (1 - u)) by (apply Rmult_le_compat_r; lra).
    assert (0 <= u * u) by (apply Rmult_le_pos; lra). lra.
Qed.

Lemma near_round k x y : bpow radix2 (-1022) <= x -> near k x y -> near (S k) (b64 x) y.
Proof. intros Hx Hn. exact (near_trans 1 k _ _ _ (near_b64 x Hx) Hn). Qed.

Lemma near_zero_round k y : near k 0 y -> near k (b64 0) y.
Proof. by rewrite (rnd_0 b64 rounding_b64). Qed.

Lemma near_mult j k x y x' y' : near j x y -> near k x' y' -> near (j + k) (x * x') (y * y').
Proof.
  intros Hn Hn'. pose proof (near_ge0 _ _ _ Hn) as G. pose proof (near_ge0 _ _ _ Hn') as G'.
  destruct Hn as (H1&H2&H3), Hn' as (H4&H5&H6). pose proof (pow_u j) as Hj. pose proof (pow_u k) as Hk.
  unfold near. rewrite pow_add. split_and!; [by apply Rmult_le_pos| |].
  - replace ((1 - u) ^ j * (1 - u) ^ k * (y * y')) with (((1 - u) ^ j * y) * ((1 - u) ^ k * y')) by ring.
    apply Rmult_le_compat; [apply Rmult_le_pos; lra|apply Rmult_le_pos; lra|done|done].
  - replace (x * x' * ((1 - u) ^ j * (1 - u) ^ k)) with ((x * (1 - u) ^ j) * (x' * (1 - u) ^ k)) by ring.
    apply Rmult_le_compat; [apply Rmult_le_pos; lra|apply Rmult_le_pos; lra|done|done].
Qed.

Lemma near_inv k x y : 0 < x -> 0 < y -> near k x y -> near k (/ x) (/ y).
Proof.
  intros Hx Hy (H1&H2&H3). pose proof (pow_u k) as Hk.
  pose proof (Rinv_0_lt_compat _ Hx) as Ix. pose proof (Rinv_0_lt_compat _ Hy) as Iy.
  unfold near. split_and!; [lra| |].
  - apply (Rmult_le_reg_r (x * y)); [by apply Rmult_lt_0_compat|].
    replace ((1 - u) ^ k * / y * (x * y)) with (x * (1 - u) ^ k) by (field; lra).
    replace (/ x * (x * y)) with y by (field; lra). done.
  - apply (Rmult_le_reg_r (x * y)); [by apply Rmult_lt_0_compat|].
    replace (/ x * (1 - u) ^ k * (x * y)) with ((1 - u) ^ k * y) by (field; lra).
    replace (/ y * (x * y)) with x by (field; lra). done.
Qed.

Lemma near_div j k x y x' y' : 0 < x' -> 0 < y' -> near j x y -> near k x' y' -> near (j + k) (x / x') (y / y').
Proof. intros Hx Hy Hn Hn'. apply near_mult; [done|]. by apply near_inv. Qed.

Lemma near_add k x y x' y' : near k x y -> near k x' y' -> near k (x + x') (y + y').
Proof. intros (H1&H2&H3) (H4&H5&H6). unfold near. split_and!; lra. Qed.

Lemma near_abs k x y : INR k * u <= 1 / 2 -> near k x y -> Rabs (x - y) <= 2 * INR k * u * y.
Proof.
  intros Hk Hn. pose proof (near_ge0 _ _ _ Hn) as Hx. destruct Hn as (H1&H2&H3).
  pose proof (pow_u_ge k) as Hp. pose proof (pos_INR k) as Hk0. pose proof u_pos as Hu.
  set (d := INR k * u) in *. assert (0 <= d) as Hd by (apply Rmult_le_pos; lra).
  replace (2 * INR k * u) with (2 * d) by (unfold d; ring).
  assert ((1 - d) * y <= x). { apply Rle_trans with (2 := H2). by apply Rmult_le_compat_r. }
  assert (x * (1 - d) <= y). { apply Rle_trans with (2 := H3). by apply Rmult_le_compat_l. }
  assert (0 <= d * y) by (by apply Rmult_le_pos). apply Rabs_le. split; [lra|].
  assert (x <= 2 * y) as Hx2.
  { assert (x * (1 / 2) <= x * (1 - d)) by (apply Rmult_le_compat_l; lra). lra. }
  assert (d * x <= d * (2 * y)) by (by apply Rmult_le_compat_l). lra.
Qed.

(** ** The word probability *)
Lemma b64_45 : Rabs (b64 (45 / 100) - 45 / 100) <= u.
Proof.
  pose proof (b64_err (45 / 100)) as H. pose proof eta_small as He. pose proof u_pos.
  pose proof (bpow_le1 (-900) ltac:(lia)).
  assert (bpow radix2 (-900) <= bpow radix2 (-1)) as Hb by (apply bpow_le; lia).
  change (bpow radix2 (-1)) with (/ 2) in Hb.
  assert (eta <= u * / 2). { apply Rle_trans with (1 := He). apply Rmult_le_compat_l; lra. }
  rewrite (Rabs_pos_eq (45 / 100)) in H by lra. lra.
Qed.

Lemma b64_near_45 : near 1 (b64 (45 / 100)) (45 / 100).
Proof.
  apply near_b64. apply Rle_trans with (bpow radix2 (-2)); [apply bpow_le; lia|]. simpl. lra.
Qed.

Definition few (z : Z) : Prop := (0 <= z <= 2 ^ 48)%Z.

Lemma few_frac c n : (0 < c)%Z -> (0 < n)%Z -> (c <= n)%Z -> few n -> bpow radix2 (-48) <= IZR c / IZR n <= 1.
Proof.
  intros Hc Hn Hcn [_ Hf]. assert (0 < IZR n) as Pn by by apply IZR_lt.
  assert (1 <= IZR c) as Pc by (apply IZR_le; lia).
  assert (IZR n <= IZR (2 ^ 48)) as Pf by by apply IZR_le.
  assert (IZR c <= IZR n) by by apply IZR_le.
  split; apply (Rmult_le_reg_r (IZR n)); try done; unfold Rdiv; rewrite Rmult_assoc, Rinv_l by lra.
  - apply Rle_trans with (bpow radix2 (-48) * IZR (2 ^ 48)).
    + apply Rmult_le_compat_l; [apply bpow_ge_0|done].
    + change (2 ^ 48)%Z with (Zpower radix2 48). rewrite IZR_Zpower by lia. rewrite <- bpow_plus. simpl. lra.
  - lra.
Qed.

(** The fraction of messages with a word: rounded, and zero only for a count of zero *)
Lemma near_frac c n : (0 <= c)%Z -> (0 < n)%Z -> (c <= n)%Z -> few n ->
  let f := b64 (IZR c / IZR n) in
  near 1 f (IZR c / IZR n) /\ (c = 0%Z -> f = 0) /\ ((0 < c)%Z -> bpow radix2 (-48) <= f).
Proof.
  intros Hc Hn Hcn Hf f. destruct (Z.eq_dec c 0) as [->|Hne].
  - assert (f = 0) as Ef.
    { unfold f. replace (0 / IZR n) with 0 by (unfold Rdiv; ring). apply (rnd_0 b64 rounding_b64). }
    split_and!; [|done|lia]. rewrite Ef. replace (0 / IZR n) with 0 by (unfold Rdiv; ring).
    apply (near_weaken 0); [lia|]. apply near_refl; lra.
  - destruct (few_frac c n) as [H1 H2]; [lia|done|done|done|]. split_and!; [|done|].
    + apply near_b64. apply Rle_trans with (2 := H1). apply bpow_le. lia.
    + intros _. by apply b64_ge_bpow.
Qed.

Lemma prob_b64 ns nh r :
  consistent (spamcount r) ns (hamcount r) nh -> few ns -> few nh -> few (hamcount r + spamcount r) ->
  exists p, prob_formula (A := rnum b64) ns nh r = Ok p /\ u <= p <= 1 - u /\
    near 9 p (robinson (spamcount r) ns (hamcount r) nh).
Proof.
  intros Hc Fs Fh Fn. pose proof (fraction_sum_pos _ _ _ _ Hc) as Hpos. pose proof (consistent_n _ _ _ _ Hc) as Hn1.
  pose proof (share_range _ _ _ _ Hc) as Hsh.
  destruct Hc as (H1&H2&H3&H4&H5&H6&H7). unfold prob_formula.
  destruct (Z.ltb_spec (if (nh =? 0)%Z then 1%Z else nh) (hamcount r)); [lia|].
  destruct (Z.ltb_spec (if (ns =? 0)%Z then 1%Z else ns) (spamcount r)); [lia|].
  unfold robinson, spam_share, fraction, nonempty_total in *. cbv zeta.
  set (nh' := if (nh =? 0)%Z then 1%Z else nh) in *. set (ns' := if (ns =? 0)%Z then 1%Z else ns) in *.
  assert (few ns' /\ 0 < ns')%Z as [Fs' Ps] by (unfold ns', few in *; destruct (Z.eqb_spec ns 0); lia).
  assert (few nh' /\ 0 < nh')%Z as [Fh' Ph] by (unfold nh', few in *; destruct (Z.eqb_spec nh 0); lia).
  destruct (near_frac (hamcount r) nh') as (Nh&Zh&Gh); [done|done|lia|done|].
  destruct (near_frac (spamcount r) ns') as (Ns&Zs&Gs); [done|done|lia|done|].
  cbn [ndivZ nadd neq ndiv nmul nZ rnum].
  set (hr := b64 (IZR (hamcount r) / IZR nh')) in *. set (sr := b64 (IZR (spamcount r) / IZR ns')) in *.
  set (hR := IZR (hamcount r) / IZR nh') in *. set (sR := IZR (spamcount r) / IZR ns') in *.
  pose proof (near_ge0 _ _ _ Nh) as Ph0. pose proof (near_ge0 _ _ _ Ns) as Ps0.
  assert (bpow radix2 (-48) <= hr + sr) as Hsum.
  { destruct H3 as [H3|H3]; [assert (bpow radix2 (-48) <= sr) by (apply Gs; lia); lra|
                             assert (bpow radix2 (-48) <= hr) by (apply Gh; lia); lra]. }
  set (den := b64 (hr + sr)).
  assert (near 2 den (hR + sR)) as Nden.
  { apply near_round; [|by apply near_add]. apply Rle_trans with (2 := Hsum). apply bpow_le. lia. }
  assert (bpow radix2 (-48) <= den) as Gden by by apply b64_ge_bpow.
  assert (sr <= den) as Hle.
  { unfold den. apply (rnd_fix_ge b64 rounding_b64); [apply (rnd_idem b64 rounding_b64)|lra]. }
  pose proof (bpow_gt_0 radix2 (-48)) as P48. assert (0 < den) as Pden by lra.
  rewrite (rnd_0 b64 rounding_b64).
  destruct (reqb den 0) eqn:E; [apply reqb_true in E; lra|]. clear E.
  set (q := b64 (sr / den)).
  assert (0 <= q <= 1) as Hq by (apply (rnd_unit b64 rounding_b64); by apply div_unit).
  assert (den <= 4) as Den4.
  { assert (hR <= 1 /\ sR <= 1) as [Bh Bs].
    { split; apply div_unit; try (by apply IZR_le); by apply IZR_lt. }
    destruct Nden as (_&_&Nd). assert (1 / 2 <= (1 - u) ^ 2) as P2 by (rewrite u_val; simpl; lra).
    assert (den * (1 / 2) <= den * (1 - u) ^ 2) by (apply Rmult_le_compat_l; lra). lra. }
  assert (near 4 q (sR / (hR + sR))) as Nq.
  { destruct (Z.eq_dec (spamcount r) 0) as [Z0|Z0].
    - unfold q. rewrite (Zs Z0). replace (0 / den) with 0 by (unfold Rdiv; ring). rewrite (rnd_0 b64 rounding_b64).
      unfold sR. rewrite Z0. replace (0 / IZR ns' / (hR + 0 / IZR ns')) with 0 by (unfold Rdiv; ring).
      apply (near_weaken 0); [lia|apply near_refl; lra].
    - apply near_round; [|by apply (near_div 1 2)].
      apply Rle_trans with (bpow radix2 (-48) * bpow radix2 (-2)); [rewrite <- bpow_plus; apply bpow_le; lia|].
      apply Rmult_le_compat; [apply bpow_ge_0|apply bpow_ge_0|apply Gs; lia|].
      change (bpow radix2 (-2)) with (/ 4). apply Rinv_le; [done|done]. }
  unfold UNKNOWN_WORD_STRENGTH, UNKNOWN_WORD_PROB. cbn [nQ rnum].
  rewrite (rnd_half b64 rounding_b64).
  set (n := IZR (hamcount r + spamcount r)) in *.
  assert (b64 n = n) as En. { apply b64_IZR. unfold few in Fn. lia. }
  rewrite En. assert (n <= IZR (2 ^ 48)) as Hn2 by (apply IZR_le, Fn).
  change (2 ^ 48)%Z with (Zpower radix2 48) in Hn2. rewrite IZR_Zpower in Hn2 by lia.
  set (s := b64 (45 / 100)). pose proof b64_45 as Hs. fold s in Hs. apply Rabs_le_inv in Hs.
  pose proof b64_near_45 as Nears. fold s in Nears.
  set (a := b64 (s * (1 / 2))).
  assert (near 2 a (45 / 100 * (1 / 2))) as Na.
  { apply near_round.
    - apply Rle_trans with (bpow radix2 (-3)); [apply bpow_le; lia|]. rewrite u_val in Hs. simpl. lra.
    - rewrite <- (Nat.add_0_r 1). apply near_mult; [done|]. apply near_refl. lra. }
  assert (Rabs (a - 45 / 100 * (1 / 2)) <= 1 / 1000) as Ha.
  { apply Rle_trans with (1 := near_abs 2 _ _ ltac:(rewrite u_val; simpl; lra) Na). rewrite u_val. simpl. lra. }
  apply Rabs_le_inv in Ha.
  set (y := b64 (n * q)).
  assert (0 <= y <= n) as Hy.
  { split; [apply (rnd_ge0 b64 rounding_b64), Rmult_le_pos; lra|].
    apply (rnd_fix_le b64 rounding_b64); [done|]. rewrite <- (Rmult_1_r n) at 2. apply Rmult_le_compat_l; lra. }
  assert (near 5 y (n * (sR / (hR + sR)))) as Ny.
  { destruct (Z.eq_dec (spamcount r) 0) as [Z0|Z0].
    - assert (sR = 0) as S0 by (unfold sR; rewrite Z0; unfold Rdiv; ring).
      assert (q = 0) as Q0.
      { unfold q. rewrite (Zs Z0). replace (0 / den) with 0 by (unfold Rdiv; ring). apply (rnd_0 b64 rounding_b64). }
      unfold y. rewrite Q0, Rmult_0_r, (rnd_0 b64 rounding_b64), S0.
      replace (n * (0 / (hR + 0))) with 0 by (unfold Rdiv; ring).
      apply (near_weaken 0); [lia|apply near_refl; lra].
    - apply near_round; [|rewrite <- (Nat.add_0_l 4); apply near_mult; [apply near_refl; lra|done]].
      assert (bpow radix2 (-50) <= q).
      { apply b64_ge_bpow; [lia|]. replace (-50)%Z with (-48 + -2)%Z by lia. rewrite bpow_plus.
        apply Rmult_le_compat; [apply bpow_ge_0|apply bpow_ge_0|apply Gs; lia|].
        change (bpow radix2 (-2)) with (/ 4). apply Rinv_le; [done|done]. }
      apply Rle_trans with (bpow radix2 (-50)); [apply bpow_le; lia|].
      apply Rle_trans with (1 * q); [lra|]. apply Rmult_le_compat_r; lra. }
  set (num := b64 (a + y)).
  assert (near 6 num (45 / 100 * (1 / 2) + n * (sR / (hR + sR)))) as Nnum.
  { apply near_round.
    - apply Rle_trans with (bpow radix2 (-3)); [apply bpow_le; lia|]. simpl. lra.
    - apply near_add; [|done]. by apply (near_weaken 2); [lia|]. }
  set (dn := b64 (s + n)).
  assert (near 2 dn (45 / 100 + n)) as Ndn.
  { apply near_round.
    - apply Rle_trans with (bpow radix2 0); [apply bpow_le; lia|]. rewrite u_val in Hs. simpl. lra.
    - apply near_add; [done|]. apply (near_weaken 0); [lia|apply near_refl; lra]. }
  assert (1 <= dn) as Gdn.
  { apply (rnd_ge1 b64 rounding_b64). rewrite u_val in Hs. lra. }
  assert (bpow radix2 (-3) <= num) as Gnum.
  { apply b64_ge_bpow; [lia|]. simpl. lra. }
  assert (forall x, 0 <= x <= bpow radix2 48 + 1 -> Rabs (b64 x - x) <= 1 / 31) as Herr.
  { intros x Hx. apply Rle_trans with (1 := b64_err x). rewrite Rabs_pos_eq by lra.
    pose proof eta_small as He. pose proof u_pos. pose proof (bpow_le1 (-900) ltac:(lia)) as H9.
    assert (u * x <= u * (bpow radix2 48 + 1)) by (apply Rmult_le_compat_l; lra).
    assert (u * bpow radix2 (-900) <= u * 1) by (apply Rmult_le_compat_l; lra).
    assert (u * bpow radix2 48 = bpow radix2 (-5)) as Eu by (unfold u; rewrite <- bpow_plus; done).
    change (bpow radix2 (-5)) with (/ 32) in Eu. rewrite u_val in *. lra. }
  assert (num <= dn - 15 / 100 /\ dn <= bpow radix2 48 + 2) as [Hgap Hdn].
  { rewrite u_val in Hs.
    assert (num <= b64 (a + n)) by (apply (rnd_mono b64 rounding_b64); lra).
    assert (Rabs (b64 (a + n) - (a + n)) <= 1 / 31) as E1 by (apply Herr; lra).
    assert (Rabs (dn - (s + n)) <= 1 / 31) as E2 by (apply Herr; lra).
    apply Rabs_le_inv in E1. apply Rabs_le_inv in E2. lra. }
  exists (b64 (num / dn)). split; [done|]. split.
  - assert (u <= num / dn <= 1 - u) as [B1 B2].
    { split; apply (Rmult_le_reg_r dn); try lra; unfold Rdiv; rewrite Rmult_assoc, Rinv_l by lra.
      - rewrite Rmult_1_r. apply Rle_trans with (u * (bpow radix2 48 + 2)); [apply Rmult_le_compat_l; [pose proof u_pos; lra|done]|].
        assert (u * bpow radix2 48 = bpow radix2 (-5)) as Eu by (unfold u; rewrite <- bpow_plus; done).
        change (bpow radix2 (-5)) with (/ 32) in Eu. change (bpow radix2 (-3)) with (/ 8) in Gnum.
        rewrite u_val in *. lra.
      - rewrite Rmult_1_r. assert (u * dn <= u * (bpow radix2 48 + 2)) by (apply Rmult_le_compat_l; [pose proof u_pos; lra|done]).
        assert (u * bpow radix2 48 = bpow radix2 (-5)) as Eu by (unfold u; rewrite <- bpow_plus; done).
        change (bpow radix2 (-5)) with (/ 32) in Eu. rewrite u_val in *. lra. }
    split.
    + apply b64_ge_bpow; [lia|done].
    + apply (rnd_fix_le b64 rounding_b64); [apply b64_one_minus_u|done].
  - apply near_round.
    + apply Rle_trans with (bpow radix2 (-3) * bpow radix2 (-50)); [rewrite <- bpow_plus; apply bpow_le; lia|].
      apply Rmult_le_compat; [apply bpow_ge_0|apply bpow_ge_0|done|].
      change (-50)%Z with (- (50))%Z. rewrite bpow_opp. apply Rinv_le; [lra|].
      apply Rle_trans with (1 := Hdn). change 50%Z with (48 + 2)%Z. rewrite bpow_plus.
      pose proof (bpow_le radix2 0 48 ltac:(lia)) as B0. change (bpow radix2 0) with 1 in B0.
      change (bpow radix2 2) with 4. lra.
    + apply (near_div 6 2); [lra|lra|done|done].
Qed.

(** ** A machine's arithmetic *)
Lemma machine_u : bpow radix2 (-52) = 2 * u.
Proof. unfold u. replace (-52)%Z with (1 + -53)%Z by lia. by rewrite bpow_plus. Qed.

Lemma machine_eta : bpow radix2 (-1074) = 2 * eta.
Proof. unfold eta. replace (-1074)%Z with (1 + -1075)%Z by lia. by rewrite bpow_plus. Qed.

(** Doubles: the numbers that rounding leaves alone *)
Lemma double_format x : b64 x = x <-> generic_format radix2 (FLT_exp (-1074) 53) x.
Proof.
  split.
  - intros E. rewrite <- E. apply generic_format_round; [by apply FLT_exp_valid|apply valid_rnd_N].
  - intros H. unfold b64. apply round_generic; [apply valid_rnd_N|done].
Qed.

Lemma double_b64 x : b64 (b64 x) = b64 x.
Proof. apply (rnd_idem b64 rounding_b64). Qed.

Lemma double_opp x : b64 x = x -> b64 (- x) = - x.
Proof. rewrite !double_format. apply generic_format_opp. Qed.

Lemma double_twice x : b64 x = x -> b64 (-2 * x) = -2 * x.
Proof.
  rewrite !double_format. intros H. replace (-2 * x) with (- (x * bpow radix2 1)) by (simpl; lra).
  apply generic_format_opp. by apply mult_bpow_pos_exact_FLT.
Qed.

Lemma double_frexp x : 0 < x -> b64 x = x -> b64 (rfrexp x).1 = (rfrexp x).1.
Proof.
  intros Hx Ex. unfold rfrexp. destruct (reqb x 0) eqn:E; [apply (rnd_0 b64 rounding_b64)|]. cbn [fst].
  rewrite double_format in *. apply mult_bpow_exact_FLT; [done|lia].
Qed.

Section machine.
Context {M : machine}.
Notation A := (mnum M).

(** No result of that size overflows *)
Lemma mb x c : Rabs x <= c -> c <= 2 ^ 60 -> mrnd x = b64 x.
Proof.
  intros H1 H2. apply mrnd_ok. apply Rle_trans with (1 := H1). apply Rle_trans with (1 := H2).
  apply Rle_trans with (bpow radix2 60); [simpl; lra|]. apply bpow_le. lia.
Qed.

Lemma mZ z : (Z.abs z <= 2 ^ 53)%Z -> mrnd (IZR z) = IZR z.
Proof.
  intros H. rewrite (mb _ (2 ^ 53)).
  - by apply b64_IZR.
  - rewrite <- abs_IZR. apply IZR_le in H. apply Rle_trans with (1 := H). simpl. lra.
  - simpl. lra.
Qed.

Lemma mhalf : mrnd (1 / 2) = 1 / 2.
Proof. rewrite (mb _ 1); [apply (rnd_half b64 rounding_b64)|rewrite Rabs_pos_eq; lra|simpl; lra]. Qed.

(** ** The scaled products *)
Lemma TINY_b64 : TINY A = TINY (rnum b64).
Proof.
  unfold TINY. cbn [nQ rnum mnum]. apply (mb _ 1); [|simpl; lra].
  assert (1 <= IZR (Z.pos (10 ^ 200))) as H by (apply IZR_le; by vm_compute).
  rewrite Rabs_pos_eq; unfold Rdiv; rewrite Rmult_1_l.
  - rewrite <- Rinv_1. apply Rinv_le; [lra|done].
  - left. apply Rinv_0_lt_compat. lra.
Qed.

Lemma TINY_ge : bpow radix2 (-665) <= TINY A.
Proof.
  rewrite TINY_b64. unfold TINY. cbn [nQ rnum]. apply b64_ge_bpow; [lia|].
  change (-665)%Z with (- (665))%Z. rewrite bpow_opp. unfold Rdiv. rewrite Rmult_1_l.
  apply Rinv_le; [apply IZR_lt; by vm_compute|].
  rewrite <- IZR_Zpower by lia. apply IZR_le. by vm_compute.
Qed.

(** x * 2^e is v up to k roundings *)
Definition frep (k : nat) (x : R) (e : Z) (v : R) : Prop :=
  near k (x * bpow radix2 e) v /\ bpow radix2 (-665) <= x <= 1 /\ (e <= 0)%Z /\ b64 x = x.

Lemma frexp_ge_half x : 0 < x -> 1 / 2 <= (rfrexp x).1.
Proof.
  intros Hx. unfold rfrexp. destruct (reqb x 0) eqn:E; [apply reqb_true in E; lra|]. cbn [fst].
  destruct (mag radix2 x) as [e He]. cbn [mag_val]. specialize (He ltac:(lra)).
  rewrite Rabs_pos_eq in He by lra.
  apply Rle_trans with (bpow radix2 (e - 1) * bpow radix2 (- e)).
  - rewrite <- bpow_plus. replace (e - 1 + - e)%Z with (-1)%Z by lia. simpl. lra.
  - apply Rmult_le_compat_r; [apply bpow_ge_0|lra].
Qed.

Lemma guard_frep k x e v : near k (x * bpow radix2 e) v -> 0 < x <= 1 -> (e <= 0)%Z -> b64 x = x ->
  let g := if nlt A x (TINY A) then ((nfrexp A x).1, (e + (nfrexp A x).2)%Z) else (x, e) in
  frep k g.1 g.2 v.
Proof.
  intros Hn Hx He Hd. pose proof (guard_range b64 rounding_b64 x e ltac:(lra) He) as [G1 G2].
  rewrite <- TINY_b64 in G1, G2. change (nlt (rnum b64)) with (nlt A) in G1, G2.
  change (nfrexp (rnum b64)) with (nfrexp A) in G1, G2. cbv zeta in *.
  destruct (nlt A x (TINY A)) eqn:E; cbn [fst snd] in *; unfold frep; split_and!; try lra; try done; try exact (proj2 G1).
  - cbn [nfrexp mnum]. destruct (rfrexp_value x ltac:(lra)) as [_ V].
    assert ((rfrexp x).1 * bpow radix2 (e + (rfrexp x).2) = x * bpow radix2 e) as E2.
    { rewrite bpow_plus. rewrite <- V at 3. ring. }
    change (near k ((rfrexp x).1 * bpow radix2 (e + (rfrexp x).2)) v). rewrite E2. exact Hn.
  - apply Rle_trans with (1 / 2); [|apply frexp_ge_half; lra].
    apply Rle_trans with (bpow radix2 (-1)); [apply bpow_le; lia|simpl; lra].
  - apply double_frexp; [lra|done].
  - apply rltb_false in E. pose proof TINY_ge. lra.
Qed.

Definition facc (k : nat) (a : acc4 A) (vS vH : R) : Prop :=
  frep k (aS A a) (aSexp A a) vS /\ frep k (aH A a) (aHexp A a) vH.

(** One factor *)
Lemma factor_frep j k x e v q y : frep k x e v -> near j q y -> u <= q <= 1 ->
  near (S (j + k)) (b64 (x * q) * bpow radix2 e) (y * v) /\ 0 < b64 (x * q) <= 1.
Proof.
  intros (Hn&Hx&He&_) Hq Bq. pose proof (bpow_gt_0 radix2 (-665)) as P.
  assert (bpow radix2 (-718) <= x * q) as Hlow.
  { replace (-718)%Z with (-665 + -53)%Z by lia. rewrite bpow_plus.
    apply Rmult_le_compat; [apply bpow_ge_0|apply bpow_ge_0|lra|]. unfold u in Bq. lra. }
  split.
  - apply (near_trans 1 (j + k) _ (x * q * bpow radix2 e)).
    + rewrite <- (Nat.add_0_r 1). apply near_mult; [|apply near_refl, bpow_ge_0].
      apply near_b64. apply Rle_trans with (2 := Hlow). apply bpow_le. lia.
    + replace (x * q * bpow radix2 e) with (q * (x * bpow radix2 e)) by ring. by apply near_mult.
  - split.
    + apply Rlt_le_trans with (bpow radix2 (-718)); [apply bpow_gt_0|]. by apply b64_ge_bpow.
    + apply (rnd_le1 b64 rounding_b64). apply mul_unit; [lra|]. pose proof u_pos. lra.
Qed.

Lemma score_step_facc k a p vS vH : facc k a vS vH -> u <= p <= 1 - u ->
  facc (S (S k)) (score_step A a p) ((1 - p) * vS) (p * vH).
Proof.
  intros [RS RH] Hp. pose proof u_pos as Hu. unfold score_step. cbn [nmul nsub nZ mnum].
  rewrite (mZ 1) by done. rewrite (mb (1 - p) 1) by (first [apply Rabs_le; lra | simpl; lra]).
  assert (near 1 (b64 (1 - p)) (1 - p) /\ u <= b64 (1 - p) <= 1) as [Nq Bq].
  { split.
    - apply near_b64. apply Rle_trans with u; [unfold u; apply bpow_le; lia|lra].
    - split; [apply b64_ge_bpow; [lia|]; fold u; lra|apply (rnd_le1 b64 rounding_b64); lra]. }
  pose proof (bpow_gt_0 radix2 (-665)) as P.
  rewrite (mb (aS A a * b64 (1 - p)) 1).
  2:{ destruct RS as (_&RS&_). destruct (mul_unit (aS A a) (b64 (1 - p))) as [U1 U2]; [lra|lra|].
      rewrite Rabs_pos_eq; lra. }
  2:{ simpl. lra. }
  rewrite (mb (aH A a * p) 1).
  2:{ destruct RH as (_&RH&_). destruct (mul_unit (aH A a) p) as [U1 U2]; [lra|lra|].
      rewrite Rabs_pos_eq; lra. }
  2:{ simpl. lra. }
  destruct (factor_frep 1 k _ _ _ _ _ RS Nq Bq) as [FS BS].
  destruct (factor_frep 0 k _ _ _ p p RH (near_refl p ltac:(lra)) ltac:(lra)) as [FH BH].
  destruct RS as (_&_&ES&_). destruct RH as (_&_&EH&_).
  split.
  - exact (guard_frep _ _ _ _ FS BS ES (double_b64 _)).
  - apply (guard_frep _ _ _ _ (near_weaken (S (0 + k)) (S (S k)) _ _ ltac:(lia) FH) BH EH (double_b64 _)).
Qed.

Lemma fold_facc ps : Forall (fun p => u <= p <= 1 - u) ps -> forall k a vS vH, facc k a vS vH ->
  facc (2 * length ps + k) (foldl (score_step A) a ps) (rprod ((fun p => 1 - p) <$> ps) * vS) (rprod ps * vH).
Proof.
  induction 1 as [|p ps Hp _ IH]; intros k a vS vH Ha.
  - simpl. by rewrite !Rmult_1_l.
  - rewrite fmap_cons. cbn [rprod foldl length].
    pose proof (IH _ _ _ _ (score_step_facc k a p vS vH Ha Hp)) as H.
    replace ((1 - p) * rprod ((fun p => 1 - p) <$> ps) * vS)
      with (rprod ((fun p => 1 - p) <$> ps) * ((1 - p) * vS)) by ring.
    replace (p * rprod ps * vH) with (rprod ps * (p * vH)) by ring.
    replace (2 * S (length ps) + k)%nat with (2 * length ps + S (S k))%nat by lia. exact H.
Qed.

Lemma start_facc : facc 0 (Acc A (nZ A 1) 0 (nZ A 1) 0) 1 1.
Proof.
  unfold facc, frep. cbn [aS aH aSexp aHexp nZ mnum]. rewrite (mZ 1) by done.
  pose proof (bpow_le1 (-665) ltac:(lia)). change (bpow radix2 0) with 1. rewrite Rmult_1_r.
  split_and!; try lra; try lia; try (apply near_refl; lra); apply (rnd_1 b64 rounding_b64).
Qed.

(** ** The logarithms *)
Lemma exp_terms_le_exp k m : 0 <= m -> exp_terms (S k) m <= exp m.
Proof.
  intros H. destruct (chi_tail_range k m H) as [_ H1]. unfold chi_tail in H1.
  apply (Rmult_le_compat_l (exp m)) in H1; [|left; apply exp_pos].
  rewrite <- Rmult_assoc, <- exp_plus, Rplus_opp_r, exp_0 in H1. lra.
Qed.

Lemma ln_le x y : 0 < x -> x <= y -> ln x <= ln y.
Proof. intros Hx [H | ->]; [left; by apply ln_increasing|lra]. Qed.

Lemma ln2_bounds : 1 / 2 <= ln 2 <= 7 / 10.
Proof.
  split.
  - rewrite <- (ln_exp (1 / 2)). apply ln_le; [apply exp_pos|].
    assert (exp (1 / 2) * exp (1 / 2) <= 3).
    { rewrite <- exp_plus. replace (1 / 2 + 1 / 2) with 1 by lra. apply exp_le_3. }
    pose proof (exp_pos (1 / 2)). nra.
  - rewrite <- (ln_exp (7 / 10)). apply ln_le; [lra|].
    apply Rle_trans with (2 := exp_terms_le_exp 3 (7 / 10) ltac:(lra)). simpl. lra.
Qed.

Lemma ln_bpow e : ln (bpow radix2 e) = IZR e * ln 2.
Proof. rewrite bpow_exp, ln_exp. done. Qed.

Lemma ln_one_minus_u : - 2 * u <= ln (1 - u).
Proof.
  pose proof u_pos. rewrite <- (ln_exp (- 2 * u)). apply ln_le; [apply exp_pos|].
  replace (- 2 * u) with (- (2 * u)) by ring. rewrite exp_Ropp.
  pose proof (exp_ineq1_le (2 * u)) as H1.
  apply Rle_trans with (/ (1 + 2 * u)); [apply Rinv_le; lra|].
  apply (Rmult_le_reg_r (1 + 2 * u)); [lra|]. rewrite Rinv_l by lra. rewrite u_val. lra.
Qed.

Lemma ln_pow_u k : - 2 * INR k * u <= ln ((1 - u) ^ k) <= 0.
Proof.
  pose proof one_u as H1. pose proof ln_one_minus_u as H2. pose proof (pow_u k) as H3. split.
  - rewrite ln_pow by lra. pose proof (pos_INR k) as Hk.
    assert (INR k * (- 2 * u) <= INR k * ln (1 - u)) by (by apply Rmult_le_compat_l). lra.
  - rewrite <- ln_1. apply ln_le; lra.
Qed.

Lemma near_ln k x y : 0 < x -> 0 < y -> near k x y -> Rabs (ln x - ln y) <= 2 * INR k * u.
Proof.
  intros Hx Hy (_&H1&H2). pose proof (pow_u k) as Hp. pose proof (ln_pow_u k) as Hl.
  apply ln_le in H1; [|by apply Rmult_lt_0_compat; lra]. apply ln_le in H2; [|by apply Rmult_lt_0_compat; lra].
  rewrite ln_mult in H1 by lra. rewrite ln_mult in H2 by lra. apply Rabs_le. lra.
Qed.

Lemma ln_low e x : bpow radix2 e <= x -> IZR e * ln 2 <= ln x.
Proof. intros H. rewrite <- ln_bpow. apply ln_le; [apply bpow_gt_0|done]. Qed.

(** The sum of the logarithms of the factors *)
Lemma rsum_low ps : Forall (fun p => u <= p <= 1) ps -> - 53 * ln 2 * INR (length ps) <= rsum (ln <$> ps) <= 0.
Proof.
  induction 1 as [|p ps Hp _ IH]; [simpl; lra|]. rewrite fmap_cons. cbn [rsum length]. rewrite S_INR.
  assert (-53 * ln 2 <= ln p) by (apply (ln_low (-53)); fold u; lra).
  assert (ln p <= 0). { rewrite <- ln_1. apply ln_le; [pose proof u_pos; lra|lra]. }
  lra.
Qed.

Lemma err_le x c : Rabs x <= c -> 0 <= c -> Rabs (b64 x - x) <= (c + 1 / 1000) * u.
Proof.
  intros H Hc. apply Rle_trans with (1 := b64_err x). pose proof eta_small as He. pose proof u_pos.
  assert (bpow radix2 (-900) <= bpow radix2 (-10)) as H9 by (apply bpow_le; lia).
  change (bpow radix2 (-10)) with (/ 1024) in H9.
  assert (u * Rabs x <= u * c) by (apply Rmult_le_compat_l; lra).
  assert (u * bpow radix2 (-900) <= u * / 1024) by (apply Rmult_le_compat_l; lra). lra.
Qed.

Lemma abs_near x y d c : Rabs (x - y) <= d -> Rabs y <= c -> Rabs x <= c + d.
Proof.
  intros H1 H2. replace x with (y + (x - y)) by ring.
  apply Rle_trans with (1 := Rabs_triang _ _). lra.
Qed.

Lemma abs_trans x y z d1 d2 : Rabs (x - y) <= d1 -> Rabs (y - z) <= d2 -> Rabs (x - z) <= d1 + d2.
Proof.
  intros H1 H2. replace (x - z) with ((x - y) + (y - z)) by ring.
  apply Rle_trans with (1 := Rabs_triang _ _). lra.
Qed.

Lemma log_b64 k x e L : (k <= 300)%nat -> - 5565 <= L <= 0 -> frep k x e (exp L) ->
  exists l, pylog A x = Ok l /\
    let s := nadd A l (nmul A (nZ A e) (LN2 A)) in
    let x2 := nmul A (nZ A (-2)) s in
    let m := b64 (x2 / 2) in
    0 <= x2 <= 11200 /\ 0 <= m <= 5600 /\ Rabs (m - - L) <= 32768 * u.
Proof.
  intros Hk HL (Hn&Hx&He&Hdx). pose proof u_pos as Hu. pose proof ln2_bounds as L2.
  pose proof (bpow_gt_0 radix2 (-665)) as Px.
  assert (0 < x) as Hx0 by lra.
  assert (Rabs (ln x + IZR e * ln 2 - L) <= 600 * u) as E0.
  { assert (Rabs (ln (x * bpow radix2 e) - ln (exp L)) <= 2 * INR k * u) as E.
    { apply near_ln; [|apply exp_pos|exact Hn]. apply Rmult_lt_0_compat; [done|apply bpow_gt_0]. }
    rewrite ln_mult, ln_bpow, ln_exp in E; [|done|apply bpow_gt_0].
    apply Rle_trans with (1 := E). apply Rmult_le_compat_r; [lra|].
    apply le_INR in Hk. replace (INR 300) with 300 in Hk by (rewrite INR_IZR_INZ; done). lra. }
  assert (-466 <= ln x <= 0) as Lx.
  { split; [|rewrite <- ln_1; apply ln_le; lra].
    apply Rle_trans with (-665 * ln 2); [lra|]. apply (ln_low (-665)). lra. }
  assert (u <= 1 / 1000000000) as Usm by (rewrite u_val; lra).
  pose proof (Rabs_le_inv _ _ E0) as E0'.
  assert (-5566 <= IZR e * ln 2 <= 0) as Le.
  { split; [lra|]. assert (IZR e <= 0) by (by apply IZR_le).
    assert (0 <= - IZR e * ln 2) by (apply Rmult_le_pos; lra). lra. }
  assert (-11132 <= IZR e <= 0) as Be.
  { split; [|by apply IZR_le]. assert (IZR e <= 0) by (by apply IZR_le). nra. }
  assert (mrnd (IZR e) = IZR e) as Ee.
  { apply mZ. destruct Be as [B1 B2]. apply le_IZR in B1. apply le_IZR in B2. lia. }
  unfold pylog. destruct (nlt A (nZ A 0) x) eqn:E.
  2:{ cbn [nlt nZ mnum] in E. rewrite (mZ 0) in E by done. apply rltb_false in E. lra. }
  exists (nlog A x). split; [done|]. cbv zeta. unfold LN2. cbn [nadd nmul ndiv nZ nlog mnum].
  rewrite (mZ 2), (mZ (-2)), Ee by done.
  pose proof (mlog_ok x Hdx Hx0) as E1. pose proof (mlog_ok 2 (rnd_2 b64 rounding_b64) ltac:(lra)) as E2.
  rewrite machine_u in E1, E2. rewrite (Rabs_left1 (ln x)) in E1 by lra. rewrite (Rabs_pos_eq (ln 2)) in E2 by lra.
  set (l := mlog x) in *. set (g := mlog 2) in *.
  assert (l <= 0) as l0.
  { apply Rabs_le_inv in E1. assert (2 * u * - ln x <= 1 * - ln x) by (apply Rmult_le_compat_r; lra). lra. }
  assert (0 <= g) as g0.
  { apply Rabs_le_inv in E2. assert (2 * u * ln 2 <= 1 * ln 2) by (apply Rmult_le_compat_r; lra). lra. }
  assert (Rabs (l - ln x) <= 932 * u) as E1'.
  { apply Rle_trans with (1 := E1). replace (2 * u * - ln x) with ((2 * - ln x) * u) by ring.
    apply Rmult_le_compat_r; lra. }
  assert (Rabs (IZR e * g - IZR e * ln 2) <= 11132 * u) as E3.
  { rewrite <- Rmult_minus_distr_l, Rabs_mult. rewrite (Rabs_left1 (IZR e)) by lra.
    apply Rle_trans with (- IZR e * (2 * u * ln 2)); [apply Rmult_le_compat_l; lra|].
    replace (- IZR e * (2 * u * ln 2)) with ((2 * - (IZR e * ln 2)) * u) by ring.
    apply Rmult_le_compat_r; lra. }
  assert (Rabs (IZR e * g) <= 5567) as Beg.
  { apply Rle_trans with (5566 + 11132 * u); [|lra]. apply (abs_near _ _ _ _ E3). apply Rabs_le. lra. }
  rewrite (mb (IZR e * g) 5567) by (first [done | simpl; lra]). set (t := b64 (IZR e * g)).
  assert (t <= 0) as t0.
  { apply (rnd_le0 b64 rounding_b64). replace 0 with (0 * g) by lra. apply Rmult_le_compat_r; lra. }
  assert (Rabs (t - IZR e * g) <= 5568 * u) as E4.
  { apply Rle_trans with ((5567 + 1 / 1000) * u); [|apply Rmult_le_compat_r; lra]. apply err_le; [done|lra]. }
  assert (Rabs (l + t - (ln x + IZR e * ln 2)) <= 17632 * u) as E5.
  { replace (l + t - (ln x + IZR e * ln 2)) with ((l - ln x) + ((t - IZR e * g) + (IZR e * g - IZR e * ln 2))) by ring.
    apply Rle_trans with (932 * u + (5568 * u + 11132 * u)); [|lra].
    apply Rle_trans with (1 := Rabs_triang _ _). apply Rplus_le_compat; [done|].
    apply Rle_trans with (1 := Rabs_triang _ _). by apply Rplus_le_compat. }
  assert (Rabs (l + t - L) <= 18232 * u) as E6.
  { apply Rle_trans with (17632 * u + 600 * u); [|lra]. by apply (abs_trans _ _ _ _ _ E5). }
  assert (Rabs L <= 5565) as AL by (apply Rabs_le; lra).
  assert (Rabs (l + t) <= 5566) as Blt.
  { apply Rle_trans with (5565 + 18232 * u); [|lra]. by apply (abs_near _ _ _ _ E6). }
  rewrite (mb (l + t) 5566) by (first [done | simpl; lra]). set (s := b64 (l + t)).
  assert (s <= 0) as s0 by (apply (rnd_le0 b64 rounding_b64); lra).
  assert (Rabs (s - (l + t)) <= 5567 * u) as E7.
  { apply Rle_trans with ((5566 + 1 / 1000) * u); [|apply Rmult_le_compat_r; lra]. apply err_le; [done|lra]. }
  assert (Rabs (s - L) <= 23799 * u) as E8.
  { apply Rle_trans with (5567 * u + 18232 * u); [|lra]. by apply (abs_trans _ _ _ _ _ E7). }
  assert (Rabs s <= 5566) as As.
  { apply Rle_trans with (5565 + 23799 * u); [|lra]. by apply (abs_near _ _ _ _ E8). }
  apply Rabs_le_inv in As.
  rewrite (mb (-2 * s) 11132) by (first [apply Rabs_le; lra | simpl; lra]).
  rewrite (double_twice s) by apply double_b64.
  replace (-2 * s / 2) with (- s) by field. rewrite (double_opp s) by apply double_b64.
  split; [lra|]. split; [lra|]. replace (- s - - L) with (- (s - L)) by ring. rewrite Rabs_Ropp. lra.
Qed.

(** ** The chi-squared tail *)
Definition w : R := 1 + 3 * u.
Definition Mx : R := 5600.

Lemma w_ge1 : 1 <= w.
Proof. unfold w. pose proof u_pos. lra. Qed.

Lemma w_pow_ge1 n : 1 <= w ^ n.
Proof. apply pow_R1_Rle, w_ge1. Qed.

Lemma w_pow n : (n <= 150)%nat -> w ^ n <= 1 + 4 * INR n * u.
Proof.
  intros Hn. pose proof u_pos as Hu.
  assert (u <= 1 / 1000000000) as Usm by (rewrite u_val; lra).
  induction n as [|n IH]; [simpl; lra|].
  specialize (IH ltac:(lia)). change (w ^ S n) with (w * w ^ n). rewrite S_INR.
  assert (INR n <= 150) as Hi.
  { replace 150 with (INR 150) by (rewrite INR_IZR_INZ; done). apply le_INR. lia. }
  pose proof (pos_INR n) as H0. pose proof w_ge1.
  apply Rle_trans with (w * (1 + 4 * INR n * u)); [apply Rmult_le_compat_l; lra|]. unfold w.
  assert (INR n * (u * u) <= 150 * (u * u)) by (apply Rmult_le_compat_r; [nra|lra]).
  assert (u * u <= u * (1 / 1000000000)) by (apply Rmult_le_compat_l; lra).
  replace ((1 + 3 * u) * (1 + 4 * INR n * u)) with (1 + 4 * INR n * u + 3 * u + 12 * (INR n * (u * u))) by ring.
  lra.
Qed.

(** Terms of the series *)
Definition Tm (m : R) (i : nat) : R := exp (- m) * (m ^ i / INR (fact i)).

Lemma Tm_S m i : Tm m (S i) = Tm m i * (m / INR (S i)).
Proof.
  unfold Tm. change (fact (S i)) with (S i * fact i)%nat. rewrite mult_INR.
  change (m ^ S i) with (m * m ^ i). field. split; [by apply not_0_INR|apply INR_fact_neq_0].
Qed.

Lemma Tm_range m i : 0 <= m -> 0 <= Tm m i <= 1.
Proof.
  intros H. split; [apply Rmult_le_pos; [left; apply exp_pos|by apply exp_term_ge0]|].
  destruct (chi_tail_range i m H) as [_ H1]. unfold chi_tail in H1. simpl in H1.
  rewrite Rmult_plus_distr_l in H1. unfold Tm.
  assert (0 <= exp_terms i m) as He.
  { pose proof (exp_terms_mono_k 0 i m H ltac:(lia)). simpl in *. lra. }
  assert (0 <= exp (- m) * exp_terms i m) by (apply Rmult_le_pos; [left; apply exp_pos|done]). lra.
Qed.

Lemma chi_tail_S m i : chi_tail (S (S i)) m = chi_tail (S i) m + Tm m (S i).
Proof. unfold chi_tail, Tm. cbn [exp_terms]. ring. Qed.

(** Factorials as integers, to compute with *)
Fixpoint zfact (n : nat) : Z := match n with O => 1 | S n => Z.of_nat (S n) * zfact n end.

Lemma zfact_eq n : INR (fact n) = IZR (zfact n).
Proof.
  induction n as [|n IH]; [done|]. change (fact (S n)) with (S n * fact n)%nat.
  rewrite mult_INR, IH. cbn [zfact]. by rewrite mult_IZR, INR_IZR_INZ.
Qed.

Definition Pw (i : nat) : R := Mx ^ i / INR (fact i).

Lemma Pw_S i : Pw (S i) = Pw i * (Mx / INR (S i)).
Proof.
  unfold Pw. change (fact (S i)) with (S i * fact i)%nat. rewrite mult_INR.
  change (Mx ^ S i) with (Mx * Mx ^ i). field. split; [by apply not_0_INR|apply INR_fact_neq_0].
Qed.

Lemma INR_150 i : (i <= 150)%nat -> INR i <= 150.
Proof.
  intros H. replace 150 with (INR 150) by (rewrite INR_IZR_INZ; done). by apply le_INR.
Qed.

Lemma Pw_mono i j : (i <= j)%nat -> (j <= 149)%nat -> 1 <= Pw i <= Pw j.
Proof.
  assert (forall i, 0 < INR (S i)) as HS by (intros; apply lt_0_INR; lia).
  assert (forall i, (S i <= 150)%nat -> 1 <= Mx / INR (S i)) as H1.
  { intros k Hk. apply (Rmult_le_reg_r (INR (S k))); [done|]. unfold Rdiv.
    rewrite Rmult_assoc, Rinv_l by (apply Rgt_not_eq, HS). apply INR_150 in Hk. unfold Mx. lra. }
  intros Hij Hj. split.
  - assert (i <= 149)%nat as Hi by lia. clear Hij Hj. induction i as [|i IH].
    + unfold Pw. simpl. lra.
    + rewrite Pw_S. specialize (IH ltac:(lia)). specialize (H1 i ltac:(lia)).
      apply Rle_trans with (1 * 1); [lra|]. apply Rmult_le_compat; lra.
  - induction Hij as [|j Hij IH]; [lra|]. specialize (IH ltac:(lia)). rewrite Pw_S.
    specialize (H1 j ltac:(lia)).
    assert (0 <= Pw j).
    { unfold Pw, Mx. apply Rmult_le_pos; [apply pow_le; lra|]. left. apply Rinv_0_lt_compat, INR_fact_pos. }
    apply Rle_trans with (1 := IH). rewrite <- (Rmult_1_r (Pw j)) at 1. by apply Rmult_le_compat_l.
Qed.

Lemma Pw_small i : (i <= 149)%nat -> 0 < Pw i <= bpow radix2 990.
Proof.
  intros Hi. destruct (Pw_mono i 149 Hi ltac:(lia)) as [H0 H1]. split; [lra|].
  apply Rle_trans with (1 := H1). unfold Pw, Mx. rewrite zfact_eq, pow_IZR.
  assert (0 < zfact 149)%Z as Hz by (by vm_compute).
  apply (Rmult_le_reg_r (IZR (zfact 149))); [by apply IZR_lt|]. unfold Rdiv.
  rewrite Rmult_assoc, Rinv_l, Rmult_1_r by (by apply IZR_neq, not_eq_sym, Z.lt_neq).
  rewrite <- IZR_Zpower by lia. rewrite <- mult_IZR. apply IZR_le.
  apply Z.leb_le. by vm_compute.
Qed.

(** Absolute part of the error of the i-th term *)
Definition Gm (i : nat) : R := 4 * eta * INR (S i) * w ^ i * Pw i.

Lemma Gm_range i : (i <= 149)%nat -> 0 <= Gm i <= u / 1000.
Proof.
  intros Hi. pose proof (Pw_small i Hi) as HP. pose proof (w_pow_ge1 i) as W1.
  pose proof (w_pow i ltac:(lia)) as W2. pose proof u_pos as Hu.
  assert (u <= 1 / 1000000000) as Usm by (rewrite u_val; lra).
  pose proof (pos_INR (S i)) as I0. pose proof (INR_150 (S i) ltac:(lia)) as I1.
  pose proof (INR_150 i ltac:(lia)) as I2. pose proof (pos_INR i).
  assert (INR i * u <= 150 * u) by (apply Rmult_le_compat_r; lra).
  assert (w ^ i <= 2) as W3 by lra.
  assert (0 < eta) as He by apply bpow_gt_0. unfold Gm. split.
  - repeat first [lra | apply Rmult_le_pos].
  - apply Rle_trans with (4 * eta * 150 * 2 * bpow radix2 990).
    + apply Rmult_le_compat; [repeat first [lra | apply Rmult_le_pos]|lra| |lra].
      apply Rmult_le_compat; [repeat first [lra | apply Rmult_le_pos]|lra| |lra].
      apply Rmult_le_compat_l; lra.
    + apply Rle_trans with (2048 * (eta * bpow radix2 990)).
      { pose proof (bpow_gt_0 radix2 990). assert (0 < eta * bpow radix2 990) by (by apply Rmult_lt_0_compat). lra. }
      unfold eta. rewrite <- bpow_plus. change 2048 with (bpow radix2 11). rewrite <- bpow_plus.
      apply Rle_trans with (u * bpow radix2 (-10)).
      * unfold u. rewrite <- bpow_plus. apply bpow_le. lia.
      * change (bpow radix2 (-10)) with (/ 1024). lra.
Qed.

Lemma Gm_S i r : (i <= 148)%nat -> 0 <= r <= Mx / INR (S i) -> w * Gm i * r + 4 * eta <= Gm (S i).
Proof.
  intros Hi Hr. unfold Gm at 2. rewrite Pw_S. change (w ^ S i) with (w * w ^ i).
  destruct (Pw_mono (S i) (S i) ltac:(lia) ltac:(lia)) as [P1 _]. rewrite Pw_S in P1.
  pose proof (Pw_small i ltac:(lia)) as HP. pose proof (w_pow_ge1 (S i)) as W1.
  change (w ^ S i) with (w * w ^ i) in W1. pose proof (w_pow_ge1 i) as W2. pose proof w_ge1 as W0.
  assert (0 < eta) as He by apply bpow_gt_0. pose proof (pos_INR (S i)) as I0.
  replace (INR (S (S i))) with (INR (S i) + 1) by (rewrite (S_INR (S i)); done).
  set (X := Pw i * (Mx / INR (S i))) in *.
  apply Rle_trans with (4 * eta * INR (S i) * (w * w ^ i) * X + 4 * eta * (1 * 1)).
  - apply Rplus_le_compat; [|lra]. unfold Gm, X.
    replace (w * (4 * eta * INR (S i) * w ^ i * Pw i) * r)
      with (4 * eta * INR (S i) * (w * w ^ i) * (Pw i * r)) by ring.
    apply Rmult_le_compat_l; [repeat first [lra | apply Rmult_le_pos]|]. apply Rmult_le_compat_l; lra.
  - apply Rle_trans with (4 * eta * INR (S i) * (w * w ^ i) * X + 4 * eta * ((w * w ^ i) * X)).
    + apply Rplus_le_compat_l. apply Rmult_le_compat_l; [lra|]. apply Rmult_le_compat; lra.
    + right. ring.
Qed.

(** The computed i-th term against the real one *)
Definition term_ok (m : R) (i : nat) (t : R) : Prop :=
  0 <= t /\ Rabs (t - Tm m i) <= (w ^ S i - 1) * Tm m i + Gm i.

Lemma term_close m i t : 0 <= m -> (i <= 149)%nat -> term_ok m i t ->
  t <= 2 /\ Rabs (t - Tm m i) <= 600 * u * Tm m i + u / 1000.
Proof.
  intros Hm Hi [H0 H]. pose proof (Gm_range i Hi) as HG. pose proof (Tm_range m i Hm) as HT.
  pose proof (w_pow (S i) ltac:(lia)) as W. pose proof (INR_150 (S i) ltac:(lia)) as I1. pose proof u_pos as Hu.
  assert (INR (S i) * u <= 150 * u) by (apply Rmult_le_compat_r; lra).
  assert (u <= 1 / 1000000000) as Usm by (rewrite u_val; lra).
  assert ((w ^ S i - 1) * Tm m i <= 600 * u * Tm m i) by (apply Rmult_le_compat_r; lra).
  split; [|lra]. apply Rabs_le_inv in H.
  assert (600 * u * Tm m i <= 600 * u * 1) by (apply Rmult_le_compat_l; lra). lra.
Qed.

Lemma term_step m i t : 0 <= m <= Mx -> (i <= 148)%nat -> term_ok m i t ->
  term_ok m (S i) (b64 (t * b64 (m / INR (S i)))).
Proof.
  intros Hm Hi Ht. destruct (term_close m i t ltac:(lra) ltac:(lia) Ht) as [T2 _].
  destruct Ht as [H0 HD]. pose proof u_pos as Hu. assert (0 < eta) as He by apply bpow_gt_0.
  assert (u <= 1 / 1000000000) as Usm by (rewrite u_val; lra).
  assert (0 < INR (S i)) as HI by (apply lt_0_INR; lia).
  set (r0 := m / INR (S i)) in *.
  assert (0 <= r0 <= Mx / INR (S i)) as Hr0.
  { unfold r0, Rdiv. pose proof (Rinv_0_lt_compat _ HI). split; [apply Rmult_le_pos; lra|].
    apply Rmult_le_compat_r; lra. }
  pose proof (b64_err r0) as Er. rewrite (Rabs_pos_eq r0) in Er by lra.
  set (r := b64 r0) in *. assert (0 <= r) as Hr by (apply (rnd_ge0 b64 rounding_b64); lra).
  assert (0 <= t * r) as Htr by (by apply Rmult_le_pos).
  pose proof (b64_err (t * r)) as Et. rewrite (Rabs_pos_eq (t * r)) in Et by done.
  split; [by apply (rnd_ge0 b64 rounding_b64)|].
  rewrite Tm_S. fold r0. set (T := Tm m i) in *. set (D := (w ^ S i - 1) * T + Gm i) in *.
  pose proof (Tm_range m i ltac:(lra)) as HT. fold T in HT.
  assert (Rabs (b64 (t * r) - T * r0) <= (u * (t * r) + eta) + (t * (u * r0 + eta) + D * r0)) as E1.
  { replace (b64 (t * r) - T * r0) with ((b64 (t * r) - t * r) + (t * (r - r0) + (t - T) * r0)) by ring.
    apply Rle_trans with (1 := Rabs_triang _ _). apply Rplus_le_compat; [done|].
    apply Rle_trans with (1 := Rabs_triang _ _). rewrite !Rabs_mult.
    rewrite (Rabs_pos_eq t), (Rabs_pos_eq r0) by lra.
    apply Rplus_le_compat; [by apply Rmult_le_compat_l|apply Rmult_le_compat_r; lra]. }
  apply Rle_trans with (1 := E1).
  assert (r <= (1 + u) * r0 + eta) as Br by (apply Rabs_le_inv in Er; lra).
  assert (t * r <= (1 + u) * (t * r0) + 2 * eta) as Btr.
  { apply Rle_trans with (t * ((1 + u) * r0 + eta)); [by apply Rmult_le_compat_l|].
    assert (t * eta <= 2 * eta) by (apply Rmult_le_compat_r; lra). lra. }
  assert (t <= T + D) as BtD by (apply Rabs_le_inv in HD; lra).
  assert (0 <= D) as D0. { apply Rle_trans with (2 := HD). apply Rabs_pos. }
  assert (t * r0 <= (T + D) * r0) as Btr0 by (apply Rmult_le_compat_r; lra).
  assert (0 <= t * r0) as Btr1 by (apply Rmult_le_pos; lra).
  assert (u * (t * r) <= u * ((1 + u) * (t * r0) + 2 * eta)) as B1 by (apply Rmult_le_compat_l; lra).
  assert (t * eta <= 2 * eta) as B2 by (apply Rmult_le_compat_r; lra).
  assert (2 * (u * eta) <= eta) as B3.
  { assert (u * eta <= 1 / 1000000000 * eta) by (apply Rmult_le_compat_r; lra). lra. }
  assert (u * u * (t * r0) <= u * (t * r0)) as B4.
  { apply Rmult_le_compat_r; [done|]. assert (u * u <= u * 1) by (apply Rmult_le_compat_l; lra). lra. }
  assert (3 * u * (t * r0) <= 3 * u * ((T + D) * r0)) as B5 by (apply Rmult_le_compat_l; lra).
  assert ((u * (t * r) + eta) + (t * (u * r0 + eta) + D * r0) <= 3 * u * ((T + D) * r0) + D * r0 + 4 * eta) as B6.
  { replace (t * (u * r0 + eta)) with (u * (t * r0) + t * eta) by ring.
    replace (u * ((1 + u) * (t * r0) + 2 * eta)) with (u * (t * r0) + u * u * (t * r0) + 2 * (u * eta)) in B1 by ring.
    lra. }
  apply Rle_trans with (1 := B6).
  pose proof (Gm_S i r0 Hi Hr0) as HG.
  change (w ^ S (S i)) with (w * w ^ S i). unfold D in *. clear D.
  replace (3 * u * ((T + ((w ^ S i - 1) * T + Gm i)) * r0) + ((w ^ S i - 1) * T + Gm i) * r0 + 4 * eta)
    with ((w * w ^ S i - 1) * (T * r0) + (w * Gm i * r0 + 4 * eta)); [lra|].
  unfold w at 1 3. ring.
Qed.

Definition res_ok (m : R) (i : nat) (x : R) : Prop :=
  0 <= x /\ Rabs (x - chi_tail (S i) m) <= 600 * u * chi_tail (S i) m + INR (S i) * (5 * u).

Lemma res_close m i x : 0 <= m -> (i <= 149)%nat -> res_ok m i x ->
  x <= 2 /\ Rabs (x - chi_tail (S i) m) <= 1350 * u.
Proof.
  intros Hm Hi [H0 H]. pose proof (chi_tail_range i m Hm) as HT. pose proof u_pos as Hu.
  pose proof (INR_150 (S i) ltac:(lia)) as I1.
  assert (u <= 1 / 1000000000) as Usm by (rewrite u_val; lra).
  assert (600 * u * chi_tail (S i) m <= 600 * u * 1) by (apply Rmult_le_compat_l; lra).
  assert (INR (S i) * (5 * u) <= 150 * (5 * u)) by (apply Rmult_le_compat_r; lra).
  split; [apply Rabs_le_inv in H; lra|lra].
Qed.

Lemma b64_INR i : (i <= 150)%nat -> b64 (IZR (Z.of_nat i)) = INR i.
Proof. intros H. rewrite INR_IZR_INZ. apply b64_IZR. lia. Qed.

Lemma chi_loop_b64 k : forall i m t x, 0 <= m <= Mx -> (i + k <= 149)%nat ->
  term_ok m i t -> res_ok m i x ->
  res_ok m (i + k) (chi_loop A k (Z.of_nat (S i)) m t x).
Proof.
  induction k as [|k IH]; intros i m t x Hm Hi Ht Hx.
  - cbn [chi_loop]. by rewrite Nat.add_0_r.
  - destruct (term_close m i t ltac:(lra) ltac:(lia) Ht) as [T1 _]. destruct Ht as [T0' Ht0].
    pose proof (conj T0' Ht0 : term_ok m i t) as Ht. clear Ht0.
    assert (1 <= INR (S i)) as I1.
    { change 1 with (INR 1). apply le_INR. lia. }
    assert (0 <= m / INR (S i) <= 5600) as Bd.
    { split; [apply Rmult_le_pos; [lra|left; apply Rinv_0_lt_compat; lra]|].
      apply (Rmult_le_reg_r (INR (S i))); [lra|]. unfold Rdiv. rewrite Rmult_assoc, Rinv_l by lra.
      unfold Mx in Hm. lra. }
    assert (b64 5600 = 5600) as E56 by (apply b64_IZR; lia).
    assert (0 <= b64 (m / INR (S i)) <= 5600) as Bq.
    { split; [apply (rnd_ge0 b64 rounding_b64); lra|]. rewrite <- E56. apply (rnd_mono b64 rounding_b64). lra. }
    assert (0 <= t * b64 (m / INR (S i)) <= 11200) as Bt.
    { split; [apply Rmult_le_pos; lra|]. apply Rle_trans with (2 * 5600); [|lra]. apply Rmult_le_compat; lra. }
    cbn [chi_loop nadd nmul ndiv nZ mnum]. rewrite (mZ (Z.of_nat (S i))) by lia. rewrite <- INR_IZR_INZ.
    rewrite (mb (m / INR (S i)) 5600) by (first [rewrite Rabs_pos_eq; lra | simpl; lra]).
    rewrite (mb (t * b64 (m / INR (S i))) 11200) by (first [rewrite Rabs_pos_eq; lra | simpl; lra]).
    replace (Z.of_nat (S i) + 1)%Z with (Z.of_nat (S (S i))) by lia.
    pose proof (term_step m i t Hm ltac:(lia) Ht) as Ht'.
    set (t' := b64 (t * b64 (m / INR (S i)))) in *.
    replace (i + S k)%nat with (S i + k)%nat by lia. apply IH; [done|lia|done|].
    destruct (term_close m (S i) t' ltac:(lra) ltac:(lia) Ht') as [T2 Tc].
    destruct (res_close m i x ltac:(lra) ltac:(lia) Hx) as [X2 _].
    destruct Hx as [X0 Hx]. destruct Ht' as [T0 _]. pose proof u_pos as Hu.
    rewrite (mb (x + t') 4) by (first [rewrite Rabs_pos_eq; lra | simpl; lra]).
    split; [apply (rnd_ge0 b64 rounding_b64); lra|].
    rewrite chi_tail_S. rewrite (S_INR (S i)).
    assert (Rabs (b64 (x + t') - (x + t')) <= (4 + 1 / 1000) * u) as E.
    { apply err_le; [apply Rabs_le; lra|lra]. }
    set (Q := chi_tail (S i) m) in *. set (T' := Tm m (S i)) in *.
    replace (b64 (x + t') - (Q + T')) with ((b64 (x + t') - (x + t')) + ((x - Q) + (t' - T'))) by ring.
    apply Rle_trans with (1 := Rabs_triang _ _).
    apply Rle_trans with ((4 + 1 / 1000) * u + ((600 * u * Q + INR (S i) * (5 * u)) + (600 * u * T' + u / 1000))).
    + apply Rplus_le_compat; [done|]. apply Rle_trans with (1 := Rabs_triang _ _). by apply Rplus_le_compat.
    + lra.
Qed.

Lemma chi_tail_lipschitz k m1 m2 : 0 <= m1 -> 0 <= m2 ->
  Rabs (chi_tail (S k) m1 - chi_tail (S k) m2) <= Rabs (m1 - m2).
Proof.
  assert (forall m1 m2, 0 <= m1 -> m1 < m2 ->
    Rabs (chi_tail (S k) m1 - chi_tail (S k) m2) <= Rabs (m1 - m2)) as H.
  { intros a b Ha Hb.
    destruct (MVT_cor2 (chi_tail (S k)) (fun m => - (exp (- m) * (m ^ k / INR (fact k)))) a b Hb) as (c&E&Hc).
    { intros c _. apply chi_tail_deriv. }
    rewrite (Rabs_minus_sym a b), Rabs_minus_sym, E. fold (Tm c k).
    pose proof (Tm_range c k ltac:(lra)) as HT. rewrite Rabs_mult, Rabs_Ropp, (Rabs_pos_eq (Tm c k)) by lra.
    rewrite <- (Rmult_1_l (Rabs (b - a))) at 2. apply Rmult_le_compat_r; [apply Rabs_pos|lra]. }
  intros H1 H2. destruct (Rtotal_order m1 m2) as [L|[->|L]].
  - by apply H.
  - rewrite !Rminus_eq_0. lra.
  - rewrite Rabs_minus_sym, (Rabs_minus_sym m1). by apply H.
Qed.

Lemma chi2Q_b64 k x2 m L : (k <= 149)%nat -> m = b64 (x2 / 2) -> 0 <= x2 <= 11200 -> 0 <= m <= 5600 -> L <= 0 ->
  Rabs (m - - L) <= 32768 * u ->
  exists q, chi2Q A x2 (2 * Z.of_nat (S k)) = Ok q /\ 0 <= q <= 1 /\
    Rabs (q - chi_tail (S k) (- L)) <= 34118 * u.
Proof.
  intros Hk Em Hx2 Hm HL Hd. unfold chi2Q. rewrite even_land. cbn [negb]. cbv zeta.
  cbn [nexp nneg ndiv nZ nlt nQ mnum]. rewrite (mZ 2) by done.
  rewrite (mb (x2 / 2) 5600) by (first [rewrite Rabs_pos_eq; lra | simpl; lra]). rewrite <- Em.
  replace (2 * Z.of_nat (S k) / 2)%Z with (Z.of_nat (S k)) by (rewrite Z.mul_comm, Z.div_mul; lia).
  replace (Z.to_nat (Z.of_nat (S k) - 1)) with k by lia.
  assert (mrnd (1 / 1) = 1) as E11.
  { replace (1 / 1) with 1 by lra. by apply (mZ 1). }
  rewrite E11.
  destruct (mexp_ok (- m)) as [E0 Ee]; [|lra|].
  { apply double_opp. rewrite Em. apply double_b64. }
  rewrite machine_u, machine_eta in Ee. set (e := mexp (- m)) in *. pose proof u_pos as Hu. assert (0 < eta) as Het by apply bpow_gt_0.
  assert (0 < exp (- m)) as Hexp by apply exp_pos.
  assert (exp (- m) <= 1) as Hexp1.
  { rewrite <- exp_0. destruct (Rle_lt_or_eq_dec _ _ (proj1 Hm)) as [Lt|<-].
    - left. apply exp_increasing. lra.
    - rewrite Ropp_0. lra. }
  assert (term_ok m 0 e) as Ht.
  { split; [done|]. unfold Tm, Gm, Pw, w. simpl. replace (1 / 1) with 1 by lra. rewrite !Rmult_1_r.
    assert (0 <= u * exp (- m)) by (apply Rmult_le_pos; lra). lra. }
  assert (res_ok m 0 e) as Hx.
  { split; [done|]. unfold chi_tail. simpl. replace (1 / 1) with 1 by lra. rewrite Rplus_0_l, !Rmult_1_r.
    assert (0 <= u * exp (- m)) by (apply Rmult_le_pos; lra).
    assert (eta <= u) as Hz.
    { apply bpow_le. lia. }
    lra. }
  pose proof (chi_loop_b64 k 0 m e e Hm ltac:(lia) Ht Hx) as HR.
  change (Z.of_nat 1) with 1%Z in HR. change (0 + k)%nat with k in HR.
  destruct (res_close m k _ ltac:(lra) Hk HR) as [_ Hc]. destruct HR as [HR0 _].
  set (x := chi_loop A k 1 m e e) in *.
  pose proof (chi_tail_range k m ltac:(lra)) as HT.
  pose proof (chi_tail_lipschitz k m (- L) ltac:(lra) ltac:(lra)) as HLip.
  assert (forall y, Rabs (y - chi_tail (S k) m) <= 1350 * u ->
    Rabs (y - chi_tail (S k) (- L)) <= 34118 * u) as Hend.
  { intros y Hy. apply Rle_trans with (1350 * u + 32768 * u); [|lra].
    apply (abs_trans _ _ _ _ _ Hy). lra. }
  destruct (rltb 1 x) eqn:E.
  - exists 1. split; [done|]. split; [lra|]. apply Hend. apply rltb_true in E.
    apply Rabs_le_inv in Hc. apply Rabs_le. lra.
  - exists x. split; [done|]. apply rltb_false in E. split; [lra|]. by apply Hend.
Qed.

(** ** The score *)
Definition tol : R := 4 / 10 ^ 12.

Lemma tol_u : 34275 * u <= tol.
Proof.
  unfold tol. rewrite u_val. replace (10 ^ 12) with 1000000000000 by (simpl; ring). lra.
Qed.

Lemma score_probs_b64_nil : score_probs A [] = Ok (1 / 2, 0, 0).
Proof.
  unfold score_probs, pylog. cbn [foldl aS aH aSexp aHexp nlt nZ mnum].
  rewrite (mZ 0), (mZ 1) by done.
  destruct (rltb 0 1) eqn:E; [|apply rltb_false in E; lra]. cbn [rbind].
  cbn [nadd nmul nZ nlog nQ mnum length Z.of_nat Z.ltb Z.compare].
  pose proof (mlog_ok 1 (rnd_1 b64 rounding_b64) ltac:(lra)) as L1.
  rewrite ln_1, Rabs_R0, Rmult_0_r, Rminus_0_r in L1.
  assert (mlog 1 = 0) as L0 by (apply Rabs_le_inv in L1; lra).
  rewrite L0, Rmult_0_l, (mZ 0), Rplus_0_l, (mZ 0), mhalf by done. done.
Qed.

Lemma rprod_exp l : Forall (fun x => 0 < x) l -> rprod l = exp (rsum (ln <$> l)).
Proof. intros H. rewrite <- (ln_rprod l H). symmetry. apply exp_ln. by apply rprod_pos. Qed.

Lemma one_minus_b64 q y d : 0 <= q <= 1 -> Rabs (q - y) <= d ->
  0 <= b64 (1 - q) <= 1 /\ Rabs (b64 (1 - q) - (1 - y)) <= d + 2 * u.
Proof.
  intros Hq Hd. pose proof u_pos as Hu. split.
  - split; [apply (rnd_ge0 b64 rounding_b64); lra|apply (rnd_le1 b64 rounding_b64); lra].
  - assert (Rabs (b64 (1 - q) - (1 - q)) <= (1 + 1 / 1000) * u) as E by (apply err_le; [apply Rabs_le; lra|lra]).
    apply Rle_trans with ((1 + 1 / 1000) * u + d); [|lra]. apply (abs_trans _ _ _ _ _ E).
    replace (1 - q - (1 - y)) with (- (q - y)) by ring. by rewrite Rabs_Ropp.
Qed.

Lemma score_probs_b64 (ps : list (F A)) : Forall (fun p => u <= p <= 1 - u) ps -> (length ps <= 150)%nat ->
  exists p S H, score_probs A ps = Ok (p, S, H) /\ (0 <= p <= 1 /\ 0 <= S <= 1 /\ 0 <= H <= 1) /\
    Rabs (p - combined_score ps) <= tol /\
    (ps <> [] -> Rabs (S - indicator_S ps) <= tol /\ Rabs (H - indicator_H ps) <= tol).
Proof.
  intros Hps Hlen. pose proof u_pos as Hu. pose proof tol_u as Htol.
  destruct (decide (ps = [])) as [->|Hne].
  { exists (1 / 2), 0, 0. split; [apply score_probs_b64_nil|]. split; [lra|]. split; [|done].
    unfold combined_score, indicator_S, indicator_H, fisher, chi_tail. simpl.
    replace (1 / 2 - _) with 0 by lra. rewrite Rabs_R0. lra. }
  assert (Forall (fun p => u <= p <= 1) ps) as Q1 by (eapply Forall_impl; [exact Hps|simpl; intros; lra]).
  assert (Forall (fun p => u <= p <= 1) ((fun p => 1 - p) <$> ps)) as Q2.
  { apply Forall_fmap. eapply Forall_impl; [exact Hps|]. simpl. intros p Hp. lra. }
  assert (forall l, Forall (fun p => u <= p <= 1) l -> Forall (fun x => 0 < x) l) as Hpos.
  { intros l Hl. eapply Forall_impl; [exact Hl|]. simpl. intros; lra. }
  assert (forall l, Forall (fun p => u <= p <= 1) l -> (length l <= 150)%nat ->
    -5565 <= rsum (ln <$> l) <= 0) as Hlow.
  { intros l Hl Hn. pose proof (rsum_low l Hl) as [H1 H2]. split; [|done]. pose proof ln2_bounds as L2.
    pose proof (INR_150 _ Hn) as I1. pose proof (pos_INR (length l)) as I0.
    assert (ln 2 * INR (length l) <= 7 / 10 * 150) by (apply Rmult_le_compat; lra). lra. }
  unfold score_probs.
  pose proof (fold_facc ps Hps 0 _ 1 1 start_facc) as [RS RH]. rewrite Nat.add_0_r, Rmult_1_r in RS, RH.
  set (a := foldl _ _ _) in *.
  rewrite (rprod_exp _ (Hpos _ Q2)) in RS. rewrite (rprod_exp _ (Hpos _ Q1)) in RH.
  set (LS := rsum (ln <$> ((fun p => 1 - p) <$> ps))) in *. set (LH := rsum (ln <$> ps)) in *.
  assert (-5565 <= LS <= 0) as BS by (apply Hlow; [done|by rewrite fmap_length]).
  assert (-5565 <= LH <= 0) as BH by (by apply Hlow).
  destruct (log_b64 (2 * length ps) _ _ _ ltac:(lia) BS RS) as (lS&->&XS&MS&DS).
  destruct (log_b64 (2 * length ps) _ _ _ ltac:(lia) BH RH) as (lH&->&XH&MH&DH).
  cbn [rbind]. destruct (length ps) as [|n] eqn:En; [by destruct ps|].
  destruct (0 <? Z.of_nat (S n))%Z eqn:E0; [|apply Z.ltb_ge in E0; lia].
  destruct (chi2Q_b64 n _ _ LS ltac:(lia) eq_refl XS MS ltac:(lra) DS) as (qS&->&QS&AS).
  destruct (chi2Q_b64 n _ _ LH ltac:(lia) eq_refl XH MH ltac:(lra) DH) as (qH&->&QH&AH).
  cbn [rbind nsub nadd ndiv nZ mnum]. rewrite (mZ 2), (mZ 1) by done.
  rewrite (mb (1 - qS) 1), (mb (1 - qH) 1) by (first [apply Rabs_le; lra | simpl; lra]).
  destruct (one_minus_b64 _ _ _ QS AS) as [RS' ES]. destruct (one_minus_b64 _ _ _ QH AH) as [RH' EH].
  set (S := b64 (1 - qS)) in *. set (H := b64 (1 - qH)) in *.
  assert (indicator_S ps = 1 - chi_tail (Datatypes.S n) (- LS)) as IS.
  { unfold indicator_S, fisher. do 2 f_equal. etrans; [apply fmap_length|exact En]. }
  assert (indicator_H ps = 1 - chi_tail (Datatypes.S n) (- LH)) as IH.
  { unfold indicator_H, fisher. do 2 f_equal. exact En. }
  rewrite <- IS in ES. rewrite <- IH in EH.
  rewrite (mb (S - H) 1) by (first [apply Rabs_le; lra | simpl; lra]).
  assert (Rabs (b64 (S - H) - (S - H)) <= (1 + 1 / 1000) * u) as F1 by (apply err_le; [apply Rabs_le; lra|lra]).
  set (d := b64 (S - H)) in *.
  assert (-1 <= d <= 1) as Bd.
  { split; [rewrite <- (rnd_m1 b64 rounding_b64)|rewrite <- (rnd_1 b64 rounding_b64)];
      apply (rnd_mono b64 rounding_b64); lra. }
  assert (Rabs (b64 (d + 1) - (d + 1)) <= (2 + 1 / 1000) * u) as F2 by (apply err_le; [apply Rabs_le; lra|lra]).
  rewrite (mb (d + 1) 2) by (first [apply Rabs_le; lra | simpl; lra]).
  set (g := b64 (d + 1)) in *.
  assert (0 <= g <= 2) as Bg.
  { split; [rewrite <- (rnd_0 b64 rounding_b64)|rewrite <- (rnd_2 b64 rounding_b64)];
      apply (rnd_mono b64 rounding_b64); lra. }
  assert (Rabs (b64 (g / 2) - g / 2) <= (1 + 1 / 1000) * u) as F3 by (apply err_le; [apply Rabs_le; lra|lra]).
  rewrite (mb (g / 2) 1) by (first [apply Rabs_le; lra | simpl; lra]).
  exists (b64 (g / 2)), S, H. split; [done|].
  split; [split; [apply (rnd_unit b64 rounding_b64); lra|lra]|].
  split; [|intros _; split; lra]. unfold combined_score.
  apply Rabs_le_inv in ES, EH, F1, F2, F3. apply Rabs_le. lra.
Qed.

(** ** The word probability again *)
Lemma prob_machine ns nh r :
  consistent (spamcount r) ns (hamcount r) nh -> few ns -> few nh -> few (hamcount r + spamcount r) ->
  prob_formula (A := A) ns nh r = (prob_formula (A := rnum b64) ns nh r : res R).
Proof.
  intros Hc Fs Fh Fn. destruct (prob_b64 ns nh r Hc Fs Fh Fn) as (p&Ep&_). revert Ep.
  pose proof (consistent_n _ _ _ _ Hc) as Hn1.
  destruct Hc as (H1&H2&H3&H4&H5&H6&H7). unfold prob_formula.
  destruct (Z.ltb_spec (if (nh =? 0)%Z then 1%Z else nh) (hamcount r)); [done|].
  destruct (Z.ltb_spec (if (ns =? 0)%Z then 1%Z else ns) (spamcount r)); [done|].
  set (nh' := if (nh =? 0)%Z then 1%Z else nh) in *. set (ns' := if (ns =? 0)%Z then 1%Z else ns) in *.
  assert (0 < ns')%Z as Ps by (unfold ns', few in *; destruct (Z.eqb_spec ns 0); lia).
  assert (0 < nh')%Z as Ph by (unfold nh', few in *; destruct (Z.eqb_spec nh 0); lia).
  cbv zeta. unfold UNKNOWN_WORD_STRENGTH, UNKNOWN_WORD_PROB. cbn [ndivZ nadd neq ndiv nmul nZ nQ rnum mnum].
  assert (0 <= IZR (hamcount r) / IZR nh' <= 1) as Bh.
  { apply div_unit; [apply IZR_le; lia|apply IZR_le; lia|apply IZR_lt; lia]. }
  assert (0 <= IZR (spamcount r) / IZR ns' <= 1) as Bs.
  { apply div_unit; [apply IZR_le; lia|apply IZR_le; lia|apply IZR_lt; lia]. }
  pose proof (rnd_unit b64 rounding_b64 _ Bh) as Rh. pose proof (rnd_unit b64 rounding_b64 _ Bs) as Rs.
  rewrite (mb (IZR (hamcount r) / IZR nh') 1) by (first [rewrite Rabs_pos_eq; lra | simpl; lra]).
  rewrite (mb (IZR (spamcount r) / IZR ns') 1) by (first [rewrite Rabs_pos_eq; lra | simpl; lra]).
  set (hr := b64 (IZR (hamcount r) / IZR nh')) in *. set (sr := b64 (IZR (spamcount r) / IZR ns')) in *.
  rewrite (mb (hr + sr) 2) by (first [rewrite Rabs_pos_eq; lra | simpl; lra]).
  rewrite (mZ 0), (rnd_0 b64 rounding_b64) by done.
  assert (sr <= b64 (hr + sr)) as Hle.
  { apply (rnd_fix_ge b64 rounding_b64); [apply (rnd_idem b64 rounding_b64)|lra]. }
  set (den := b64 (hr + sr)) in *. destruct (reqb den 0) eqn:E; [done|]. intros _.
  apply reqb_false in E.
  assert (0 <= sr / den <= 1) as Bq by (apply div_unit; lra).
  pose proof (rnd_unit b64 rounding_b64 _ Bq) as Rq.
  rewrite (mb (sr / den) 1) by (first [rewrite Rabs_pos_eq; lra | simpl; lra]).
  set (q := b64 (sr / den)) in *.
  set (n := IZR (hamcount r + spamcount r)) in *.
  assert (b64 n = n) as En. { apply b64_IZR. unfold few in Fn. lia. }
  assert (mrnd n = n) as Mn. { apply mZ. unfold few in Fn. lia. }
  rewrite En, Mn. assert (n <= IZR (2 ^ 48)) as Hn2 by (apply IZR_le, Fn).
  change (IZR (2 ^ 48)) with 281474976710656 in Hn2.
  rewrite mhalf, (rnd_half b64 rounding_b64).
  rewrite (mb (45 / 100) 1) by (first [rewrite Rabs_pos_eq; lra | simpl; lra]).
  pose proof b64_45 as Hs. set (s := b64 (45 / 100)) in *. apply Rabs_le_inv in Hs. rewrite u_val in Hs.
  rewrite (mb (s * (1 / 2)) 1) by (first [rewrite Rabs_pos_eq; lra | simpl; lra]).
  assert (0 <= b64 (s * (1 / 2)) <= 1) as Ra by (apply (rnd_unit b64 rounding_b64); lra).
  set (a := b64 (s * (1 / 2))) in *.
  assert (0 <= n * q <= n) as By.
  { split; [apply Rmult_le_pos; lra|]. rewrite <- (Rmult_1_r n) at 2. apply Rmult_le_compat_l; lra. }
  rewrite (mb (n * q) 281474976710656) by (first [rewrite Rabs_pos_eq; lra | simpl; lra]).
  assert (0 <= b64 (n * q) <= n) as Ry.
  { split; [apply (rnd_ge0 b64 rounding_b64); lra|]. apply (rnd_fix_le b64 rounding_b64); [done|lra]. }
  set (y := b64 (n * q)) in *.
  rewrite (mb (a + y) 281474976710657) by (first [rewrite Rabs_pos_eq; lra | simpl; lra]).
  rewrite (mb (s + n) 281474976710657) by (first [rewrite Rabs_pos_eq; lra | simpl; lra]).
  assert (b64 281474976710657 = 281474976710657) as E48 by (apply b64_IZR; lia).
  assert (0 <= b64 (a + y) <= 281474976710657) as Rn.
  { split; [apply (rnd_ge0 b64 rounding_b64); lra|]. rewrite <- E48. apply (rnd_mono b64 rounding_b64). lra. }
  assert (1 <= b64 (s + n)) as Rd by (apply (rnd_ge1 b64 rounding_b64); lra).
  set (num := b64 (a + y)) in *. set (dn := b64 (s + n)) in *.
  rewrite (mb (num / dn) 281474976710657); [done| |simpl; lra].
  assert (0 < / dn <= 1) as Id.
  { split; [apply Rinv_0_lt_compat; lra|]. rewrite <- Rinv_1. apply Rinv_le; lra. }
  unfold Rdiv. rewrite Rabs_pos_eq by (apply Rmult_le_pos; lra).
  apply Rle_trans with (num * 1); [apply Rmult_le_compat_l; lra|lra].
Qed.

Lemma prob_mach ns nh r :
  consistent (spamcount r) ns (hamcount r) nh -> few ns -> few nh -> few (hamcount r + spamcount r) ->
  exists p : R, prob_formula (A := A) ns nh r = Ok p /\ u <= p <= 1 - u /\
    near 9 p (robinson (spamcount r) ns (hamcount r) nh).
Proof.
  intros Hc Fs Fh Fn. destruct (prob_b64 ns nh r Hc Fs Fh Fn) as (p&Ep&Hp). exists p. split; [|done].
  by rewrite (prob_machine ns nh r Hc Fs Fh Fn).
Qed.

Lemma mnum_total : total_num A.
Proof.
  constructor; simpl.
  - apply reqb_true.
  - intros x. apply rltb_false. lra.
  - intros x y z. rewrite !rltb_true. lra.
  - intros x y. rewrite !rltb_false. lra.
Qed.
End machine.

(** ** Correct rounding and no overflow: one such machine *)
Lemma double_gap x m e : b64 x = x -> cexp radix2 (FLT_exp (-1074) 53) x = e ->
  F2R (Float radix2 m e) < x < F2R (Float radix2 (m + 1) e) -> False.
Proof.
  rewrite double_format. intros Hx <- H. exact (generic_format_discrete radix2 _ x m H Hx).
Qed.

Lemma double_near_1 x : b64 x = x -> x <= 1 - u \/ x = 1 \/ 1 + u <= x.
Proof.
  intros Hx. pose proof u_pos as Hu. pose proof u_val as Eu.
  destruct (Rle_dec x (1 - u)) as [?|H1]; [by left|]. destruct (Rle_dec (1 + u) x) as [?|H2]; [by right; right|].
  right; left. destruct (Rtotal_order x 1) as [H|[->|H]]; [exfalso|done|exfalso].
  - apply (double_gap x 9007199254740991 (-53) Hx).
    + unfold cexp. rewrite (mag_unique_pos radix2 x 0); [done|]. simpl. rewrite Eu in *. lra.
    + unfold F2R. cbn [Fnum Fexp]. fold u. rewrite Eu in *. rewrite plus_IZR. lra.
  - apply (double_gap x 4503599627370496 (-52) Hx).
    + unfold cexp. rewrite (mag_unique_pos radix2 x 1); [done|]. simpl. rewrite Eu in *. lra.
    + unfold F2R. cbn [Fnum Fexp]. rewrite machine_u. rewrite Eu in *. rewrite plus_IZR. lra.
Qed.

Lemma ln_double x : b64 x = x -> 0 < x -> ln x = 0 \/ bpow radix2 (-1022) <= Rabs (ln x).
Proof.
  intros Hx Hp. pose proof u_pos as Hu. pose proof u_val as Eu.
  assert (bpow radix2 (-1022) <= u / 2) as Hb.
  { apply Rle_trans with (bpow radix2 (-54)); [apply bpow_le; lia|]. unfold u.
    replace (-53)%Z with (1 + -54)%Z by lia. rewrite bpow_plus. simpl (bpow radix2 1).
    pose proof (bpow_gt_0 radix2 (-54)). lra. }
  destruct (double_near_1 x Hx) as [H|[->|H]]; [right|left; apply ln_1|right].
  - assert (ln x <= - u) as Hl.
    { rewrite <- (ln_exp (- u)). apply ln_le; [done|]. pose proof (exp_ineq1_le (- u)). lra. }
    rewrite Rabs_left1 by lra. lra.
  - assert (u / 2 <= ln x) as Hl.
    { rewrite <- (ln_exp (u / 2)). apply ln_le; [apply exp_pos|].
      apply Rle_trans with (2 := H). replace (u / 2) with (- - (u / 2)) by ring. rewrite exp_Ropp.
      pose proof (exp_ineq1_le (- (u / 2))).
      apply Rle_trans with (/ (1 + - (u / 2))); [apply Rinv_le; lra|].
      apply (Rmult_le_reg_r (1 + - (u / 2))); [lra|]. rewrite Rinv_l by lra. rewrite Eu. lra. }
    rewrite Rabs_pos_eq by lra. lra.
Qed.

Definition ieee : machine.
Proof.
  refine (Machine b64 (fun x => b64 (ln x)) (fun x => b64 (exp x)) _ _ _).
  - done.
  - intros x Hx Hp. destruct (ln_double x Hx Hp) as [->|Hl].
    { rewrite (rnd_0 b64 rounding_b64), Rminus_0_r, Rabs_R0. lra. }
    destruct (b64_rel _ Hl) as (d&Hd&->). replace (ln x * (1 + d) - ln x) with (d * ln x) by ring.
    rewrite Rabs_mult, machine_u. apply Rmult_le_compat_r; [apply Rabs_pos|]. pose proof u_pos. lra.
  - intros x _ _. pose proof (exp_pos x) as Hp. split; [apply (rnd_ge0 b64 rounding_b64); lra|].
    apply Rle_trans with (1 := b64_err _). rewrite (Rabs_pos_eq (exp x)) by lra.
    rewrite machine_u, machine_eta. pose proof u_pos. pose proof eta_pos.
    assert (u * exp x <= 2 * u * exp x) by (apply Rmult_le_compat_r; lra). lra.
Defined.

Lemma ieee_num : mnum ieee = rnum b64.
Proof. done. Qed.
