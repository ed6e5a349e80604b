(** * Machines for the examples of C145 *)
From Coq Require Import Reals Lra Lia Psatz String.
From Flocq Require Import Core.
From Verif Require Import Py NumModel ClassifierModel RealModel RealSpec RealProofs FloatProofs HeadModel HeadSpec HeadProofs OptModel LogModel LogProofs.
Local Open Scope R_scope.

Definition log_machine (f : R -> R) (Hf : forall x, Rabs (f x - ln x) <= bpow radix2 (-52) * Rabs (ln x)) : machine.
Proof.
  refine (Machine b64 f exp _ _ _).
  - done.
  - intros x _ _. apply Hf.
  - intros x _ _. pose proof (exp_pos x). split; [lra|]. replace (exp x - exp x) with 0 by ring. rewrite Rabs_R0.
    pose proof (bpow_ge_0 radix2 (-1074)). pose proof (bpow_ge_0 radix2 (-52)).
    assert (0 <= bpow radix2 (-52) * exp x) by (apply Rmult_le_pos; lra). lra.
Defined.

Lemma ln_fine x : Rabs (ln x - ln x) <= bpow radix2 (-52) * Rabs (ln x).
Proof.
  replace (ln x - ln x) with 0 by ring. rewrite Rabs_R0. apply Rmult_le_pos; [apply bpow_ge_0|apply Rabs_pos].
Qed.

(** The logarithm is not rounded. *)
Definition exact_logs : machine := log_machine ln ln_fine.

(** The logarithm of 8 is one unit too low, all others are not rounded. *)
Definition ln_low (x : R) : R := if Req_EM_T x 8 then ln x * (1 - bpow radix2 (-52)) else ln x.
Lemma ln_low_fine x : Rabs (ln_low x - ln x) <= bpow radix2 (-52) * Rabs (ln x).
Proof.
  unfold ln_low. destruct (Req_EM_T x 8) as [E|E]; [|apply ln_fine].
  replace (ln x * (1 - bpow radix2 (-52)) - ln x) with (- (bpow radix2 (-52) * ln x)) by ring.
  rewrite Rabs_Ropp, Rabs_mult, (Rabs_pos_eq (bpow radix2 (-52))) by apply bpow_ge_0. lra.
Qed.
Definition low_log : machine := log_machine ln_low ln_low_fine.

Lemma ln_8 : ln 8 = 3 * ln 2.
Proof. exact (ln_pow2 3 ltac:(lia)). Qed.

Lemma b64_below_3 : b64 (3 * (1 - bpow radix2 (-52))) < 3.
Proof.
  set (y := 3 - bpow radix2 (-51)).
  assert (b64 y = y) as Hy.
  { apply round_generic; [apply valid_rnd_N|]. apply generic_format_FLT.
    exists (Float radix2 (3 * 2 ^ 51 - 1) (-51)); [|simpl; lia|simpl; lia].
    unfold F2R, y. cbn [Fnum Fexp]. change (bpow radix2 (-51)) with (/ IZR 2251799813685248).
    change (3 * 2 ^ 51 - 1)%Z with 6755399441055743%Z. lra. }
  assert (b64 (3 * (1 - bpow radix2 (-52))) <= b64 y) as H.
  { apply round_le; [apply FLT_exp_valid; done|apply valid_rnd_N|]. unfold y. simpl. lra. }
  rewrite Hy in H. apply Rle_lt_trans with (1 := H). unfold y. simpl. lra.
Qed.

Lemma logs_of_eight : float_int_log2 exact_logs 8 = 3%Z /\ float_int_log2 low_log 8 = 2%Z.
Proof.
  pose proof ln2_bounds as L2.
  assert (b64 8 = 8) as E8 by (apply (b64_IZR 8); simpl; lia). assert (b64 2 = 2) as E2 by apply (rnd_2 b64 rounding_b64).
  assert (b64 3 = 3) as E3 by (apply (b64_IZR 3); simpl; lia).
  split.
  - unfold float_int_log2, flog2. cbn [ndiv nlog nZ mnum exact_logs log_machine mrnd mlog]. change (Z.of_nat 8) with 8%Z.
    rewrite E8, E2, ln_8. replace (3 * ln 2 / ln 2) with 3 by (field; lra). rewrite E3. apply (Ztrunc_IZR 3).
  - destruct (@int_log2_float low_log 8 3 ltac:(done) ltac:(done) ltac:(done)) as [_ H].
    assert (float_int_log2 low_log 8 <> 3)%Z; [|lia]. intros E. unfold float_int_log2, flog2 in E.
    cbn [ndiv nlog nZ mnum low_log log_machine mrnd mlog] in E. change (Z.of_nat 8) with 8%Z in E. rewrite E8, E2 in E.
    unfold ln_low in E. destruct (Req_EM_T 8 8) as [_|]; [|lra]. destruct (Req_EM_T 2 8) as [|_]; [lra|].
    rewrite ln_8 in E. replace (3 * ln 2 * (1 - bpow radix2 (-52)) / ln 2) with (3 * (1 - bpow radix2 (-52))) in E by (field; lra).
    pose proof b64_below_3 as B. set (z := b64 (3 * (1 - bpow radix2 (-52)))) in *.
    destruct (Rle_lt_dec 0 z) as [Hz|Hz].
    + rewrite Ztrunc_floor in E by done. pose proof (Zfloor_lb z) as Hl. rewrite E in Hl. lra.
    + rewrite Ztrunc_ceil in E by lra. assert (Zceil z <= 0)%Z; [|lia]. apply Zceil_glb. lra.
Qed.

Lemma log_of_power_refuted : ~ (forall (M : machine) (k : nat), (Z.of_nat k < 32)%Z -> float_int_log2 M (2 ^ k) = Z.of_nat k).
Proof. intros H. pose proof (H low_log 3%nat ltac:(done)) as E. pose proof (proj2 logs_of_eight) as E'. simpl in E. rewrite E' in E. done. Qed.

Lemma round_log2_float_model (M : machine) (n : nat) : (0 < n)%nat -> (Z.of_nat n < 2 ^ 32)%Z ->
  float_round_log2 M n = Z.of_N (round_log2 n).
Proof. intros H1 H2. apply round_log2_float; [done|done|]. by apply round_log2_spec. Qed.

Lemma round_log2_float_iff (M : machine) (n : nat) (k : N) : (0 < n)%nat -> (Z.of_nat n < 2 ^ 32)%Z ->
  float_round_log2 M n = Z.of_N k <-> nearest_log2 n k.
Proof.
  intros H1 H2. split; [|by apply round_log2_float]. rewrite round_log2_float_model by done. intros E%N2Z.inj. subst k.
  by apply round_log2_spec.
Qed.

Lemma int_log2_float_cases (M : machine) (n k : nat) :
  (Z.of_nat n < 2 ^ 32)%Z -> (2 ^ Z.of_nat k <= Z.of_nat n < 2 ^ (Z.of_nat k + 1))%Z ->
  ((Z.of_nat n <> 2 ^ Z.of_nat k \/ n = 1%nat)%Z -> float_int_log2 M n = Z.of_nat k) /\
  (float_int_log2 M n = Z.of_nat k \/ float_int_log2 M n = (Z.of_nat k - 1)%Z).
Proof.
  intros H1 H2. destruct (int_log2_float n (Z.of_nat k) H1 ltac:(lia) H2) as [A B]. split; [|lia].
  intros [H|H]; apply A; [by left|]. right. subst n. destruct k as [|k]; [done|exfalso].
  pose proof (Z.pow_le_mono_r 2 1 (Z.of_nat (S k))). lia.
Qed.

Lemma int_log2_float_model (M : machine) (n : nat) :
  (0 < n)%nat -> (Z.of_nat n < 2 ^ 32)%Z -> ~ (exists k : nat, (0 < k)%nat /\ Z.of_nat n = 2 ^ Z.of_nat k)%Z ->
  float_int_log2 M n = Z.of_N (int_log2 n).
Proof.
  intros H1 H2 H3. unfold int_log2. set (k := N.to_nat (N.log2 (N.of_nat n))).
  destruct (N.log2_spec (N.of_nat n) ltac:(lia)) as [L1%N2Z.inj_le L2%N2Z.inj_lt].
  rewrite N2Z.inj_pow, nat_N_Z in L1, L2. rewrite N2Z.inj_succ in L2.
  assert (Z.of_N (N.log2 (N.of_nat n)) = Z.of_nat k) as E by (unfold k; lia). rewrite E in *.
  apply (int_log2_float_cases M n k H2 ltac:(split; [done|]; by rewrite Z.add_1_r)).
  destruct (decide (Z.of_nat n = 2 ^ Z.of_nat k)%Z) as [Ek|Ek]; [|by left]. right.
  destruct (Nat.eq_dec k 0) as [K0|K0]; [rewrite K0 in Ek; simpl in Ek; lia|]. exfalso. apply H3. exists k. split; [lia|done].
Qed.

Lemma log_case : float_round_log2 ieee 11 = 3%Z /\ float_round_log2 ieee 12 = 4%Z /\ float_int_log2 ieee 12 = 3%Z.
Proof.
  split_and!; [by rewrite round_log2_float_model by (done || lia)|by rewrite round_log2_float_model by (done || lia)|].
  apply (int_log2_float_cases ieee 12 3); [done|done|by left].
Qed.
