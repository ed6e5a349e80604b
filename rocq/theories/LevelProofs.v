(** * Proofs about the level header *)
From Coq Require Import Reals Lra Lia.
From Flocq Require Import Core.
From Verif Require Import Py NumModel RealModel RealProofs LevelModel.
Local Open Scope R_scope.

Section level.
  Context (rnd : R -> R) (H : rounding rnd) (H10 : rnd 10 = 10).

  Lemma product_mono p q : p <= q -> rnd (p * rnd 10) <= rnd (q * rnd 10).
  Proof. intros Hpq. rewrite H10. apply (rnd_mono _ H). lra. Qed.

  Lemma product_range p : 0 <= p <= 1 -> 0 <= rnd (p * rnd 10) <= 10.
  Proof.
    intros Hp. rewrite H10. split.
    - rewrite <- (rnd_0 _ H). apply (rnd_mono _ H). lra.
    - rewrite <- H10 at 2. apply (rnd_mono _ H). lra.
  Qed.

  Lemma stars_le_10 p : 0 <= p <= 1 -> (stars rnd p <= 10)%nat.
  Proof.
    intros Hp. unfold stars. simpl nmul. simpl nZ.
    destruct (product_range p Hp) as [H0 H1].
    rewrite Ztrunc_floor by done.
    assert (Zfloor (rnd (p * rnd 10)) <= 10)%Z; [|lia].
    apply le_IZR. eapply Rle_trans; [apply Zfloor_lb|done].
  Qed.

  Lemma stars_mono p q : 0 <= p -> p <= q -> (stars rnd p <= stars rnd q)%nat.
  Proof.
    intros Hp Hpq. unfold stars. simpl nmul. simpl nZ.
    apply Z2Nat.inj_le.
    - rewrite <- (Ztrunc_IZR 0). apply Ztrunc_le. rewrite <- (rnd_0 _ H), H10. apply (rnd_mono _ H). lra.
    - rewrite <- (Ztrunc_IZR 0). apply Ztrunc_le. rewrite <- (rnd_0 _ H), H10. apply (rnd_mono _ H). lra.
    - apply Ztrunc_le. by apply product_mono.
  Qed.

  Lemma stars_one : stars rnd 1 = 10%nat.
  Proof.
    unfold stars. simpl nmul. simpl nZ. rewrite Rmult_1_l, !H10. by rewrite (Ztrunc_IZR 10).
  Qed.

  Lemma stars_lt_10 p : 0 <= p -> rnd (p * rnd 10) < 10 -> (stars rnd p < 10)%nat.
  Proof.
    intros Hp Hlt. unfold stars. simpl nmul. simpl nZ.
    assert (H0 : 0 <= rnd (p * rnd 10)).
    { rewrite <- (rnd_0 _ H), H10. apply (rnd_mono _ H). lra. }
    rewrite Ztrunc_floor by done.
    assert (Zfloor (rnd (p * rnd 10)) < 10)%Z; [|lia].
    apply lt_IZR. eapply Rle_lt_trans; [apply Zfloor_lb|done].
  Qed.
End level.

Lemma exact_rounding_id : rounding (fun x => x).
Proof. constructor; intros; lra. Qed.

Lemma exact_below_one p : 0 <= p < 1 -> (stars (fun x => x) p < 10)%nat.
Proof. intros Hp. apply stars_lt_10; [apply exact_rounding_id|done|lra|lra]. Qed.

Local Instance prec53_gt_0 : Prec_gt_0 53.
Proof. done. Qed.

(** The exact number: [stars/10 <= p < (stars+1)/10]. *)
Lemma exact_floor p : 0 <= p <= 1 ->
  INR (stars (fun x => x) p) / 10 <= p < (INR (stars (fun x => x) p) + 1) / 10.
Proof.
  intros Hp. unfold stars. simpl nmul. simpl nZ.
  rewrite Ztrunc_floor by lra.
  assert (H0 : (0 <= Zfloor (p * 10))%Z) by (apply Zfloor_lub; simpl; lra).
  rewrite INR_IZR_INZ, Z2Nat.id by done.
  pose proof (Zfloor_lb (p * 10)). pose proof (Zfloor_ub (p * 10)). lra.
Qed.

Lemma b64_10 : b64 10 = 10.
Proof. apply (b64_IZR 10). lia. Qed.

Lemma b64_product_below p : 0 <= p < 1 -> b64 p = p -> b64 (p * 10) < 10.
Proof.
  intros Hp Hf.
  assert (Hfmt : generic_format radix2 (FLT_exp (-1074) 53) p).
  { rewrite <- Hf. unfold b64. apply generic_format_round; [apply FLT_exp_valid; done|apply valid_rnd_N]. }
  assert (Hp1 : p <= 1 - bpow radix2 (-53)).
  { pose proof (pred_bpow radix2 (FLT_exp (-1074) 53) 0) as Hpb.
    assert (Hle : p <= Ulp.pred radix2 (FLT_exp (-1074) 53) (bpow radix2 0)).
    { apply pred_ge_gt; [apply FLT_exp_valid; done|done| |simpl; lra].
      apply generic_format_bpow. unfold FLT_exp. lia. }
    rewrite Hpb in Hle. change (FLT_exp (-1074) 53 0) with (-53)%Z in Hle. change (bpow radix2 0) with 1 in Hle. exact Hle. }
  destruct (Rlt_le_dec (p * 10) 8) as [Hlt|Hge].
  - apply Rle_lt_trans with (b64 8); [apply (rnd_mono _ rounding_b64); lra|].
    rewrite (b64_IZR 8) by lia. lra.
  - pose proof (error_le_half_ulp radix2 (FLT_exp (-1074) 53) (fun x => negb (Z.even x)) (p * 10)) as He.
    assert (Hmag : mag radix2 (p * 10) = 4%Z :> Z).
    { apply mag_unique. rewrite Rabs_pos_eq by lra. simpl. lra. }
    rewrite ulp_neq_0 in He by lra. unfold cexp in He. rewrite Hmag in He.
    change (FLT_exp (-1074) 53 4) with (-49)%Z in He.
    apply Rabs_le_inv in He.
    change (round radix2 (FLT_exp (-1074) 53) (Znearest (fun x => negb (Z.even x))) (p * 10)) with (b64 (p * 10)) in He.
    assert (E : bpow radix2 (-49) = 16 * bpow radix2 (-53)).
    { change (-49)%Z with (4 + -53)%Z. rewrite bpow_plus. simpl (bpow radix2 4). lra. }
    pose proof (bpow_gt_0 radix2 (-53)) as Hpos. lra.
Qed.

Lemma b64_below_one p : 0 <= p < 1 -> b64 p = p -> (stars b64 p < 10)%nat.
Proof.
  intros Hp Hf. apply stars_lt_10; [apply rounding_b64|apply b64_10|lra|].
  rewrite b64_10. by apply b64_product_below.
Qed.
