(** * Two histories with the same result (C07) *)
From Coq Require Import String.
From Verif Require Import Py NumModel ClassifierModel TrainSpec TrainProofs ScoreProofs.

Lemma unmarked_all {B} (h : list B) : unmarked ((fun c => (c, false)) <$> h) = h.
Proof. induction h as [|c h IH]; [done|]. unfold unmarked in *. cbn. by rewrite IH. Qed.
Lemma unmarked_zip {B D} (r : list B) (h : list D) : length r = length h -> unmarked (zip r (snd <$> ((fun c => (c, false)) <$> h))) = r.
Proof.
  revert h. induction r as [|x r IH]; intros [|c h] E; try done. unfold unmarked in *. cbn. f_equal. apply IH. cbn in E. lia.
Qed.
Lemma run_length {A St} (bk : backend St) it h : forall o : obj A St, length (run bk it h o).2 = length h.
Proof.
  induction h as [|c h IH]; intros o; [done|]. cbn [run]. destruct (run_call bk it c o) as [o1 x]. specialize (IH o1).
  destruct (run bk it h o1) as [o2 r]. cbn in *. lia.
Qed.

Lemma same_histories (A : num) (it : set_order) (bg : bool) h1 h2 h : set_order_ok it ->
  let o1 := fst (run mem_backend it h1 (c_new bg ∅ : obj A (gmap pyword winfo))) in
  let o2 := fst (run mem_backend it h2 (c_new bg ∅ : obj A (gmap pyword winfo))) in
  same_training o1 o2 ->
  snd (run mem_backend it h o1) = snd (run mem_backend it h o2) /\
  same_training (fst (run mem_backend it h o1)) (fst (run mem_backend it h o2)).
Proof.
  intros Hit o1 o2 T.
  pose proof (erase_scores it Hit ((fun c => (c, false)) <$> h) o1 o2) as H.
  rewrite unmarked_all in H. rewrite <- list_fmap_compose in H. replace ((fst ∘ (fun c : call => (c, false))) <$> h) with h in H by (by rewrite list_fmap_id).
  pose proof (run_length mem_backend it h o1) as L.
  destruct (run mem_backend it h o1) as [o1' r1]. destruct (run mem_backend it h o2) as [o2' r2]. cbn [fst snd] in *.
  destruct H as [E Ht].
  - apply Forall_fmap. by apply Forall_true.
  - apply (reachable_good it Hit bg h1).
  - apply (reachable_good it Hit bg h2).
  - done.
  - split; [|done]. rewrite unmarked_zip in E; done.
Qed.
