(** * The binary logarithm of a count in floating point (C145) *)
From Coq Require Import Reals Lra Lia Psatz String.
From Flocq Require Import Core.
From Verif Require Import Py NumModel ClassifierModel RealModel RealSpec RealProofs FloatProofs HeadModel HeadSpec HeadProofs LogModel.
Local Open Scope R_scope.

Lemma ln_minus x : 0 < x -> ln x <= x - 1.
Proof. intros Hx. pose proof (exp_ineq1_le (ln x)) as H. rewrite exp_ln in H by done. lra. Qed.

(** Logarithms of different integers are apart. *)
Lemma ln_apart (a b : Z) : (0 < a)%Z -> (a < b)%Z -> 1 / IZR b <= ln (IZR b) - ln (IZR a).
Proof.
  intros Ha Hb. assert (0 < IZR a) as Pa by by apply IZR_lt. assert (IZR a + 1 <= IZR b) as Hab.
  { rewrite <- plus_IZR. apply IZR_le. lia. }
  assert (0 < IZR a / IZR b) as Pq by (apply Rdiv_lt_0_compat; lra).
  pose proof (ln_minus _ Pq) as H. unfold Rdiv in H. rewrite ln_mult, ln_Rinv in H; [|lra|lra|apply Rinv_0_lt_compat; lra].
  assert (IZR a * / IZR b <= 1 - / IZR b); [|lra].
  apply (Rmult_le_reg_r (IZR b)); [lra|]. rewrite Rmult_minus_distr_r, Rmult_assoc, Rinv_l by lra. lra.
Qed.

(** Logarithms of integers whose quotient is at most 1 - 2^-41 *)
Lemma ln_gap (a b : Z) : (0 < a)%Z -> (a * 2 ^ 41 <= b * (2 ^ 41 - 1))%Z -> 1 / IZR (2 ^ 41) <= ln (IZR b) - ln (IZR a).
Proof.
  intros Ha Hab. assert (0 < b)%Z as Hb by nia.
  assert (0 < IZR a) as Pa by by apply (IZR_lt 0). assert (0 < IZR b) as Pb by by apply (IZR_lt 0).
  apply IZR_le in Hab. rewrite !mult_IZR, minus_IZR in Hab. set (g := IZR (2 ^ 41)) in *.
  assert (0 < g) as Pg by (apply (IZR_lt 0); done).
  assert (0 < IZR a / IZR b) as Pq by (apply Rdiv_lt_0_compat; lra).
  pose proof (ln_minus _ Pq) as H. unfold Rdiv in H. rewrite ln_mult, ln_Rinv in H; [|lra|lra|apply Rinv_0_lt_compat; lra].
  assert (IZR a * / IZR b <= 1 - 1 / g); [|lra].
  apply (Rmult_le_reg_r (IZR b * g)); [apply Rmult_lt_0_compat; lra|].
  replace (IZR a * / IZR b * (IZR b * g)) with (IZR a * g) by (field; lra).
  replace ((1 - 1 / g) * (IZR b * g)) with (IZR b * (g - 1)) by (field; lra). lra.
Qed.

(** No square of an integer below 2^32 is so near to an odd power of two. *)
Definition gap_check (k : nat) : bool :=
  let P := (2 ^ (2 * Z.of_nat k))%Z in
  let s := (if Nat.eqb k 0 then 1 else Z.sqrt (P / 2) + 1)%Z in
  let t := Z.sqrt (2 * P) in
  (((s - 1) * (s - 1) * 2 <=? P) && (P * 2 ^ 41 <=? 2 * (s * s) * (2 ^ 41 - 1)) &&
   (2 * P <? (t + 1) * (t + 1)) && (t * t * 2 ^ 41 <=? 2 * P * (2 ^ 41 - 1)) && (0 <? s) && (0 <=? t))%Z.

Lemma gaps (k : nat) : (k <= 32)%nat -> let P := (2 ^ (2 * Z.of_nat k))%Z in
  (forall m, 0 < m -> P < 2 * (m * m) -> P * 2 ^ 41 <= 2 * (m * m) * (2 ^ 41 - 1))%Z /\
  (forall m, 0 < m -> m * m < 2 * P -> m * m * 2 ^ 41 <= 2 * P * (2 ^ 41 - 1))%Z.
Proof.
  intros Hk P. assert (gap_check k = true) as H.
  { assert (forallb gap_check (seq 0 33) = true) as H by by vm_compute.
    rewrite forallb_forall in H. apply H. apply in_seq. lia. }
  unfold gap_check in H. fold P in H. set (s := (if Nat.eqb k 0 then 1 else Z.sqrt (P / 2) + 1)%Z) in H. set (t := Z.sqrt (2 * P)) in H. cbv zeta in H.
  rewrite !andb_true_iff, !Z.leb_le, !Z.ltb_lt in H. destruct H as [[[[[H1 H2] H3] H4] H5] H6].
  set (g := (2 ^ 41)%Z) in *. assert (1 < g)%Z as Hg by done. clearbody g s t P.
  split; intros m Hm Hl.
  - assert (s <= m)%Z as Hs. { destruct (Z.le_gt_cases s m); [done|exfalso]. nia. }
    apply Z.le_trans with (1 := H2). apply Z.mul_le_mono_nonneg_r; [lia|]. nia.
  - assert (m <= t)%Z as Hs. { destruct (Z.le_gt_cases m t); [done|exfalso]. nia. }
    apply Z.le_trans with (2 := H4). apply Z.mul_le_mono_nonneg_r; [lia|]. nia.
Qed.

Lemma gap_u : 1 / IZR (2 ^ 41) = 4096 * u.
Proof. rewrite u_val. change (2 ^ 41)%Z with 2199023255552%Z. lra. Qed.

Lemma ln_pow2 (k : Z) : (0 <= k)%Z -> ln (IZR (2 ^ k)) = IZR k * ln 2.
Proof.
  intros Hk. rewrite <- (Z2Nat.id k) by done. rewrite <- pow_IZR, ln_pow by lra. by rewrite INR_IZR_INZ.
Qed.

Section log.
  Context {M : machine}.

  Lemma flog2_near (n : nat) : 0 < IZR (Z.of_nat n) <= 4294967296 ->
    Rabs (flog2 (mnum M) n - ln (IZR (Z.of_nat n)) / ln 2) <= 256 * u /\ (n = 1%nat -> flog2 (mnum M) n = 0).
  Proof.
    intros Hn. pose proof u_pos as Hu. pose proof ln2_bounds as L2. assert (u <= 1 / 1000000000) as Usm by (rewrite u_val; lra).
    assert (1 <= IZR (Z.of_nat n)) as H1. { apply (IZR_le 1). destruct Hn as [H _]. apply lt_IZR in H. lia. }
    unfold flog2. cbn [ndiv nlog nZ mnum]. rewrite (mZ 2) by done.
    rewrite (mZ (Z.of_nat n)). 2:{ destruct Hn as [_ H]. apply le_IZR in H. lia. }
    assert (b64 (IZR (Z.of_nat n)) = IZR (Z.of_nat n)) as Hb.
    { apply b64_IZR. destruct Hn as [_ H]. apply le_IZR in H. lia. }
    pose proof (mlog_ok (IZR (Z.of_nat n)) Hb (proj1 Hn)) as E1. pose proof (mlog_ok 2 (rnd_2 b64 rounding_b64) ltac:(lra)) as E2.
    rewrite machine_u in E1, E2.
    assert (0 <= ln (IZR (Z.of_nat n))) as HL by (rewrite <- ln_1; apply ln_le; lra).
    assert (ln (IZR (Z.of_nat n)) <= 32 * ln 2) as HL2.
    { rewrite <- (ln_pow2 32) by done. apply ln_le; [lra|]. change (2 ^ 32)%Z with 4294967296%Z. lra. }
    rewrite (Rabs_pos_eq (ln 2)) in E2 by lra. rewrite (Rabs_pos_eq (ln (IZR _))) in E1 by lra.
    set (L := ln (IZR (Z.of_nat n))) in *. set (c := ln 2) in *. set (l := mlog (IZR (Z.of_nat n))) in *. set (g := mlog 2) in *.
    assert (c * (1 - 2 * u) <= g) as Hg by (apply Rabs_le_inv in E2; lra).
    assert (49 / 100 <= g) as Hg2. { apply Rle_trans with (2 := Hg). apply Rle_trans with (1 / 2 * (1 - 2 * u)); [lra|]. apply Rmult_le_compat_r; lra. }
    set (X := L / c). assert (L = X * c) as EL by (unfold X; field; lra).
    assert (0 <= X <= 32) as HX.
    { split; unfold X; [apply Rmult_le_pos; [lra|left; apply Rinv_0_lt_compat; lra]|]. apply (Rmult_le_reg_r c); [lra|]. unfold Rdiv. rewrite Rmult_assoc, Rinv_l; lra. }
    assert (Rabs (l / g - X) <= 132 * u) as E3.
    { replace (l / g - X) with (((l - L) + X * (c - g)) / g) by (rewrite EL; field; lra).
      unfold Rdiv. rewrite Rabs_mult, (Rabs_pos_eq (/ g)) by (left; apply Rinv_0_lt_compat; lra).
      apply (Rmult_le_reg_r g); [lra|]. rewrite Rmult_assoc, Rinv_l, Rmult_1_r by lra.
      apply Rle_trans with (1 := Rabs_triang _ _). rewrite Rabs_mult, (Rabs_pos_eq X) by lra. rewrite (Rabs_minus_sym c g).
      assert (X * Rabs (g - c) <= X * (2 * u * c)) by (apply Rmult_le_compat_l; lra).
      assert (4 * u * (X * c) <= 4 * u * (32 * c)). { apply Rmult_le_compat_l; [lra|]. apply Rmult_le_compat_r; lra. }
      assert (132 * u * (c * (1 - 2 * u)) <= 132 * u * g) by (apply Rmult_le_compat_l; lra).
      assert (128 * u * c <= 132 * u * (c * (1 - 2 * u))).
      { replace (132 * u * (c * (1 - 2 * u))) with (u * c * (132 - 264 * u)) by ring. replace (128 * u * c) with (u * c * 128) by ring.
        apply Rmult_le_compat_l; [apply Rmult_le_pos; lra|lra]. }
      assert (Rabs (l - L) <= 2 * u * (X * c)) by (rewrite <- EL; exact E1). lra. }
    assert (Rabs (l / g) <= 33) as E4.
    { apply Rabs_le_inv in E3. apply Rabs_le. lra. }
    rewrite (mb (l / g) 33) by (first [done | simpl; lra]). split.
    - apply Rle_trans with ((33 + 1 / 1000) * u + 132 * u); [|lra]. apply (abs_trans _ (l / g)); [|done]. apply err_le; [done|lra].
    - intros ->. assert (L = 0) as E0 by (unfold L; simpl; apply ln_1). rewrite E0, Rmult_0_r in E1.
      assert (l = 0) as ->. { apply Rabs_le_inv in E1. lra. }
      unfold Rdiv. rewrite Rmult_0_l. apply (rnd_0 b64 rounding_b64).
  Qed.

  Lemma round_log2_float (n : nat) (k : N) : (0 < n)%nat -> (Z.of_nat n < 2 ^ 32)%Z -> nearest_log2 n k -> float_round_log2 M n = Z.of_N k.
  Proof.
    intros Hn Hm [K1 K2]. set (m := Z.of_nat n) in *. assert (0 < m)%Z as Pm by (unfold m; lia).
    assert (0 < IZR m <= 4294967296) as Hr. { split; [by apply (IZR_lt 0)|]. apply IZR_le. lia. }
    destruct (flog2_near n Hr) as [Hy _]. fold m in Hy.
    pose proof u_pos as Hu. pose proof ln2_bounds as L2.
    set (P := (2 ^ (2 * Z.of_N k))%Z).
    assert (P < 2 * (m * m))%Z as J1. { apply N2Z.inj_lt in K1. rewrite N2Z.inj_pow, !N2Z.inj_mul, nat_N_Z in K1. exact K1. }
    assert (m * m < 2 * P)%Z as J2. { apply N2Z.inj_lt in K2. rewrite !N2Z.inj_mul, N2Z.inj_pow, nat_N_Z, N2Z.inj_mul in K2. exact K2. }
    assert (0 < P)%Z as PP by (apply Z.pow_pos_nonneg; lia).
    assert (k <= 32)%N as Hk.
    { destruct (N.le_gt_cases k 32) as [|Hk]; [done|exfalso]. assert (2 ^ 66 <= P)%Z by (apply Z.pow_le_mono_r; lia). nia. }
    destruct (gaps (N.to_nat k) ltac:(lia)) as [C1 C2]. rewrite N_nat_Z in C1, C2. fold P in C1, C2.
    pose proof (ln_gap P (2 * (m * m)) PP (C1 m Pm J1)) as A1. pose proof (ln_gap (m * m) (2 * P) ltac:(nia) (C2 m Pm J2)) as A2.
    assert (0 < IZR m * IZR m) as Mp by (apply Rmult_lt_0_compat; lra).
    rewrite !mult_IZR in A1, A2.
    assert (IZR P <= 2 * (IZR m * IZR m)) as BP. { rewrite <- !mult_IZR. apply IZR_le. lia. }
    assert (0 < IZR P) as PP' by by apply (IZR_lt 0).
    rewrite !ln_mult in A1 by lra. rewrite !ln_mult in A2 by lra.
    assert (ln (IZR P) = 2 * IZR (Z.of_N k) * ln 2) as EP. { unfold P. rewrite ln_pow2 by lia. rewrite mult_IZR. ring. }
    rewrite EP in A1, A2.
    rewrite gap_u in A1, A2.
    set (X := ln (IZR m) / ln 2) in *. assert (ln (IZR m) = X * ln 2) as EX by (unfold X; field; lra). rewrite EX in A1, A2.
    set (kk := IZR (Z.of_N k)) in *.
    unfold float_round_log2. apply Znearest_imp. fold kk.
    assert (256 * u < 1 / 2 + X - kk) as B1.
    { apply (Rmult_lt_reg_r (ln 2)); [lra|]. assert (256 * u * ln 2 <= 256 * u * (7 / 10)) by (apply Rmult_le_compat_l; lra).
      replace ((1 / 2 + X - kk) * ln 2) with ((ln 2 + (X * ln 2 + X * ln 2) - 2 * kk * ln 2) / 2) by field. lra. }
    assert (256 * u < 1 / 2 + kk - X) as B2.
    { apply (Rmult_lt_reg_r (ln 2)); [lra|]. assert (256 * u * ln 2 <= 256 * u * (7 / 10)) by (apply Rmult_le_compat_l; lra).
      replace ((1 / 2 + kk - X) * ln 2) with ((ln 2 + 2 * kk * ln 2 - (X * ln 2 + X * ln 2)) / 2) by field. lra. }
    apply Rabs_le_inv in Hy. apply Rabs_lt. lra.
  Qed.

  (** Rounding down *)
  Lemma int_log2_float (n : nat) (k : Z) : (Z.of_nat n < 2 ^ 32)%Z -> (0 <= k)%Z -> (2 ^ k <= Z.of_nat n < 2 ^ (k + 1))%Z ->
    (Z.of_nat n <> 2 ^ k \/ k = 0 -> float_int_log2 M n = k)%Z /\ (k - 1 <= float_int_log2 M n <= k)%Z.
  Proof.
    intros Hm Hk [K1 K2]. set (m := Z.of_nat n) in *. assert (0 < 2 ^ k)%Z as Pk by (apply Z.pow_pos_nonneg; lia).
    assert (0 < m)%Z as Pm by lia.
    assert (0 < IZR m <= 4294967296) as Hr. { split; [by apply (IZR_lt 0)|]. apply IZR_le. lia. }
    destruct (flog2_near n Hr) as [Hy H1]. fold m in Hy. apply Rabs_le_inv in Hy.
    pose proof u_pos as Hu. pose proof ln2_bounds as L2. assert (u <= 1 / 1000000000000000) as Usm by (rewrite u_val; lra).
    set (X := ln (IZR m) / ln 2) in *. assert (ln (IZR m) = X * ln 2) as EX by (unfold X; field; lra).
    set (y := (flog2 (mnum M) n : R)) in *.
    assert (k <= 31)%Z as K20. { destruct (Z.le_gt_cases k 31); [done|]. pose proof (Z.pow_le_mono_r 2 32 k). lia. }
    assert (IZR (2 ^ (k + 1)) <= 4294967296) as H20. { apply IZR_le. change 4294967296%Z with (2 ^ 32)%Z. apply Z.pow_le_mono_r; lia. }
    assert (0 < IZR (2 ^ (k + 1))) as P20. { apply (IZR_lt 0). apply Z.pow_pos_nonneg; lia. }
    assert (y < IZR k + 1) as Y2.
    { pose proof (ln_apart m (2 ^ (k + 1)) Pm K2) as A. rewrite ln_pow2, plus_IZR, EX in A by lia.
      assert (1 / 4294967296 <= 1 / IZR (2 ^ (k + 1))). { unfold Rdiv. apply Rmult_le_compat_l; [lra|]. apply Rinv_le; lra. }
      assert (256 * u < IZR k + 1 - X); [|lra]. apply (Rmult_lt_reg_r (ln 2)); [lra|].
      assert (256 * u * ln 2 <= 256 * u * (7 / 10)) by (apply Rmult_le_compat_l; lra). lra. }
    assert (IZR k <= X) as X1.
    { apply (Rmult_le_reg_r (ln 2)); [lra|]. rewrite <- EX, <- ln_pow2 by done. apply ln_le; [by apply (IZR_lt 0)|]. by apply IZR_le. }
    assert ((m <> 2 ^ k \/ k = 0)%Z -> IZR k <= y) as Y1.
    { intros Hc. destruct (Z.eq_dec m (2 ^ k)) as [E|E].
      - destruct Hc as [Hc| ->]; [done|]. change (2 ^ 0)%Z with 1%Z in E. assert (n = 1%nat) as En by (unfold m in E; lia).
        rewrite (H1 En). lra.
      - pose proof (ln_apart (2 ^ k) m Pk ltac:(lia)) as A. rewrite ln_pow2, EX in A by lia.
        assert (1 / 4294967296 <= 1 / IZR m). { unfold Rdiv. apply Rmult_le_compat_l; [lra|]. apply Rinv_le; lra. }
        assert (256 * u < X - IZR k); [|lra]. apply (Rmult_lt_reg_r (ln 2)); [lra|].
        assert (256 * u * ln 2 <= 256 * u * (7 / 10)) by (apply Rmult_le_compat_l; lra). lra. }
    unfold float_int_log2. fold y.
    assert (IZR k <= y -> Ztrunc y = k) as Hf.
    { intros Hky. assert (0 <= IZR k) by (by apply (IZR_le 0)). rewrite Ztrunc_floor by lra.
      apply Zfloor_imp. rewrite plus_IZR. lra. }
    split; [intros Hc; by apply Hf, Y1|].
    destruct (Rle_lt_dec (IZR k) y) as [Hky|Hky]; [rewrite (Hf Hky); lia|].
    assert (k <> 0)%Z as Hk0. { intros E. pose proof (Y1 (or_intror E)). lra. }
    assert (Ztrunc y = k - 1)%Z as ->; [|lia].
    assert (0 <= IZR (k - 1)) by (apply (IZR_le 0); lia). rewrite minus_IZR in *.
    rewrite Ztrunc_floor by lra. apply Zfloor_imp. replace (k - 1 + 1)%Z with k by lia. rewrite minus_IZR. lra.
  Qed.
End log.
