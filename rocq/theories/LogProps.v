(** * C145: the binary logarithms in tokens, computed in floating point *)
From Coq Require Import Reals.
From Verif Require Import Py NumModel RealModel FloatProofs HeadModel HeadSpec OptModel LogModel LogProofs LogCases.

(** On every machine round(log2(n)) is the integer nearest to the logarithm. *)
Theorem C145_rounded_logarithm_is_nearest : forall (M : machine) (n : nat) (k : N),
  (0 < n)%nat -> (Z.of_nat n < 2 ^ 32)%Z -> (float_round_log2 M n = Z.of_N k <-> nearest_log2 n k).
Proof. exact @round_log2_float_iff. Qed.
Print Assumptions C145_rounded_logarithm_is_nearest.

(** So the tokens with rounded logarithms of the model are those of the code. *)
Theorem C145_model_rounds_like_the_code : forall (M : machine) (n : nat),
  (0 < n)%nat -> (Z.of_nat n < 2 ^ 32)%Z -> float_round_log2 M n = Z.of_N (round_log2 n).
Proof. exact @round_log2_float_model. Qed.
Print Assumptions C145_model_rounds_like_the_code.

(** int(log2(n)) is the logarithm rounded down, unless n is a power of two
    above 1; then it can be one less, and no other value. *)
Theorem C145_truncated_logarithm : forall (M : machine) (n k : nat),
  (Z.of_nat n < 2 ^ 32)%Z -> (2 ^ Z.of_nat k <= Z.of_nat n < 2 ^ (Z.of_nat k + 1))%Z ->
  ((Z.of_nat n <> 2 ^ Z.of_nat k \/ n = 1%nat)%Z -> float_int_log2 M n = Z.of_nat k) /\
  (float_int_log2 M n = Z.of_nat k \/ float_int_log2 M n = (Z.of_nat k - 1)%Z).
Proof. exact @int_log2_float_cases. Qed.
Print Assumptions C145_truncated_logarithm.

Theorem C145_model_truncates_like_the_code : forall (M : machine) (n : nat),
  (0 < n)%nat -> (Z.of_nat n < 2 ^ 32)%Z -> ~ (exists k : nat, (0 < k)%nat /\ Z.of_nat n = 2 ^ Z.of_nat k)%Z ->
  float_int_log2 M n = Z.of_N (int_log2 n).
Proof. exact @int_log2_float_model. Qed.
Print Assumptions C145_model_truncates_like_the_code.

(** For a power of two the accuracy of math.log does not determine the token: on
    one machine 8 gives 3, on another 2, although both take logarithms with a
    relative error below 2^-52. *)
Theorem C145_truncated_logarithm_of_a_power_of_two_refuted :
  ~ (forall (M : machine) (k : nat), (Z.of_nat k < 32)%Z -> float_int_log2 M (2 ^ k) = Z.of_nat k).
Proof. exact log_of_power_refuted. Qed.
Print Assumptions C145_truncated_logarithm_of_a_power_of_two_refuted.

Theorem C145_powers_of_two_differ_between_machines :
  float_int_log2 exact_logs 8 = 3%Z /\ float_int_log2 low_log 8 = 2%Z.
Proof. exact logs_of_eight. Qed.
Print Assumptions C145_powers_of_two_differ_between_machines.

Example C145_case : float_round_log2 ieee 11 = 3%Z /\ float_round_log2 ieee 12 = 4%Z /\ float_int_log2 ieee 12 = 3%Z.
Proof. exact log_case. Qed.
