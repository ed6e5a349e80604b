(** * Machines for the examples of C121 *)
From Coq Require Import Reals Lra Lia String.
From Flocq Require Import Core.
From Verif Require Import Py NumModel ClassifierModel TrainSpec RealModel RealProofs FloatProofs.
Local Open Scope R_scope.

(** Overflow gives 7, the logarithm is off by one unit, the exponential is not rounded. *)
Definition odd_machine : machine.
Proof.
  refine (Machine (fun x => if Rle_dec (Rabs x) (bpow radix2 1023) then b64 x else 7)
                  (fun x => ln x * (1 + bpow radix2 (-52))) exp _ _ _).
  - intros x Hx. by destruct (Rle_dec _ _).
  - intros x Hx Hp. replace (ln x * (1 + bpow radix2 (-52)) - ln x) with (bpow radix2 (-52) * ln x) by ring.
    rewrite Rabs_mult, (Rabs_pos_eq (bpow radix2 (-52))) by apply bpow_ge_0.
    apply Rmult_le_compat_r; [apply Rabs_pos|]. apply bpow_le. lia.
  - intros x _ _. pose proof (exp_pos x). split; [lra|]. replace (exp x - exp x) with 0 by ring. rewrite Rabs_R0.
    pose proof (bpow_ge_0 radix2 (-1074)). pose proof (bpow_ge_0 radix2 (-52)).
    assert (0 <= bpow radix2 (-52) * exp x) by (apply Rmult_le_pos; lra). lra.
Defined.

Lemma odd_overflow : @mrnd odd_machine (bpow radix2 1024) = 7.
Proof.
  cbn [mrnd odd_machine]. destruct (Rle_dec _ _) as [H|H]; [|done]. exfalso.
  rewrite Rabs_pos_eq in H by apply bpow_ge_0. apply le_bpow in H. lia.
Qed.

Lemma odd_differs : @mrnd odd_machine (bpow radix2 1024) <> @mrnd ieee (bpow radix2 1024) /\
  @mlog odd_machine 2 <> @mlog ieee 2.
Proof.
  split.
  - rewrite odd_overflow. cbn [mrnd ieee].
    assert (bpow radix2 10 <= b64 (bpow radix2 1024)) as H by (apply b64_ge_bpow; [lia|apply bpow_le; lia]).
    intros E. rewrite <- E in H. simpl in H. lra.
  - cbn [mlog odd_machine ieee]. pose proof ln_lt_2 as H2.
    assert (bpow radix2 (-1022) <= Rabs (ln 2)) as Hl.
    { rewrite Rabs_pos_eq by lra. apply Rle_trans with (bpow radix2 (-1)); [apply bpow_le; lia|simpl; lra]. }
    destruct (b64_rel _ Hl) as (d&Hd&->). intros E.
    assert (bpow radix2 (-52) = d) as Ed by (apply (Rmult_eq_reg_l (ln 2)); lra).
    rewrite machine_u in Ed. pose proof u_pos. apply Rabs_le_inv in Hd. lra.
Qed.
