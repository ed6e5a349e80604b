(** * Hosts, networks, timeouts and memoisation: lemmas *)
From Coq Require Import String Lia.
From Verif Require Import Py NetModel NetSpec.

(** ** Splitting and joining *)

Lemma split_dot_ne s : split_dot s <> [].
Proof. destruct s as [|c s]; simpl; [done|]. destruct (c =? 46)%N; [done|]. by destruct (split_dot s). Qed.

Lemma split_dot_free s : Forall (fun p => 46%N ∉ p) (split_dot s).
Proof.
  induction s as [|c s IH]; simpl; [constructor; [set_solver|constructor]|].
  destruct (N.eqb_spec c 46) as [->|Hc]; [constructor; [set_solver|done]|].
  destruct (split_dot s) as [|p ps]; inversion IH; subst; constructor; set_solver.
Qed.

Lemma join_cons_ne (p : codes) l : l <> [] -> join_dot (p :: l) = p ++ 46%N :: join_dot l.
Proof. by destruct l. Qed.

Lemma join_split s : join_dot (split_dot s) = s.
Proof.
  induction s as [|c s IH]; [done|]. cbn [split_dot].
  destruct (N.eqb_spec c 46) as [->|Hc].
  - rewrite join_cons_ne by apply split_dot_ne. by rewrite IH.
  - pose proof (split_dot_ne s) as Hn. destruct (split_dot s) as [|p ps]; [done|].
    rewrite <- IH. destruct ps as [|q ps]; [done|]. done.
Qed.

Lemma split_join l : l <> [] -> Forall (fun p => 46%N ∉ p) l -> split_dot (join_dot l) = l.
Proof.
  intros Hne HF. induction HF as [|p l Hp HF IH]; [done|].
  assert (forall q, 46%N ∉ q -> split_dot q = [q]) as Hone.
  { intros q. induction q as [|c q IHq]; intros Hq; simpl; [done|].
    destruct (N.eqb_spec c 46) as [->|Hc]; [set_solver|]. rewrite IHq by set_solver. done. }
  destruct l as [|p' l'].
  - cbn [join_dot]. by apply Hone.
  - rewrite join_cons_ne by done. specialize (IH ltac:(done)).
    clear Hone. induction p as [|c p IHp].
    + rewrite app_nil_l. cbn [split_dot]. rewrite N.eqb_refl. by rewrite IH.
    + rewrite <- app_comm_cons. cbn [split_dot]. destruct (N.eqb_spec c 46) as [->|Hc]; [set_solver|].
      rewrite IHp by set_solver. done.
Qed.

Lemma join_app l1 l2 : l1 <> [] -> l2 <> [] -> join_dot (l1 ++ l2) = join_dot l1 ++ 46%N :: join_dot l2.
Proof.
  intros H1 H2. induction l1 as [|p l1 IH]; [done|]. destruct l1 as [|q l1].
  - simpl app. by rewrite join_cons_ne.
  - change ((p :: q :: l1) ++ l2) with (p :: ((q :: l1) ++ l2)). rewrite join_cons_ne by done.
    rewrite IH by done. rewrite (join_cons_ne p) by done. by rewrite <- app_assoc.
Qed.

Lemma split_app a b : split_dot (a ++ 46%N :: b) = split_dot a ++ split_dot b.
Proof.
  rewrite <- (join_split a) at 1. rewrite <- (join_split b) at 1.
  rewrite <- join_app by apply split_dot_ne. apply split_join.
  - pose proof (split_dot_ne a). by destruct (split_dot a).
  - apply Forall_app; split; apply split_dot_free.
Qed.

Lemma dots_cons c s : dots (c :: s) = (if decide (c = 46%N) then 1 else 0) + dots s.
Proof. unfold dots. change (codes) with (list N) in *. rewrite (filter_cons (fun c => c = 46%N) c s). by destruct (decide (c = 46%N)). Qed.

Lemma split_length s : length (split_dot s) = S (dots s).
Proof.
  induction s as [|c s IH]; [done|]. cbn [split_dot]. rewrite dots_cons.
  destruct (N.eqb_spec c 46) as [->|Hc].
  - rewrite decide_True by done. cbn [length]. by rewrite IH.
  - rewrite decide_False by done. rewrite Nat.add_0_l, <- IH. destruct (split_dot s) eqn:E; [by apply split_dot_ne in E|]. done.
Qed.

(** ** breakdown_host *)

Lemma last_n_app {A} (l1 l2 : list A) : last_n (length l2) (l1 ++ l2) = l2.
Proof. unfold last_n. rewrite app_length. replace (length l1 + length l2 - length l2) with (length l1) by lia. by rewrite drop_app. Qed.

Lemma breakdown_host_elem t s : t ∈ breakdown_host s <-> dot_suffix t s.
Proof.
  unfold breakdown_host. rewrite elem_of_list_fmap. split.
  - intros (i & -> & Hi). apply elem_of_seq in Hi.
    set (parts := split_dot s) in *. unfold last_n.
    destruct (decide (i = length parts)) as [->|Hne].
    + left. rewrite Nat.sub_diag. rewrite drop_0. apply join_split.
    + right. exists (join_dot (take (length parts - i) parts)).
      rewrite <- join_app.
      * rewrite take_drop. symmetry. apply join_split.
      * intros E. apply (f_equal length) in E. rewrite take_length in E. cbn [length] in E. lia.
      * intros E. apply (f_equal length) in E. rewrite drop_length in E. cbn [length] in E. lia.
  - intros [->|[x ->]].
    + exists (length (split_dot s)). split.
      * unfold last_n. rewrite Nat.sub_diag, drop_0. symmetry. apply join_split.
      * apply elem_of_seq. rewrite split_length. lia.
    + exists (length (split_dot t)). rewrite split_app. split.
      * rewrite last_n_app. symmetry. apply join_split.
      * apply elem_of_seq. rewrite app_length, !split_length. lia.
Qed.

Lemma join_drop_lt (l : list codes) k : k < length l - 1 ->
  length (join_dot (drop (S k) l)) < length (join_dot (drop k l)).
Proof.
  intros Hk. destruct (lookup_lt_is_Some_2 l k) as [p Hp]; [lia|].
  rewrite (drop_S l p k Hp). rewrite join_cons_ne.
  - rewrite app_length. cbn [length]. lia.
  - intros E. apply (f_equal length) in E. rewrite drop_length in E. cbn [length] in E. lia.
Qed.

Lemma breakdown_host_longer s : longer_and_longer (breakdown_host s).
Proof.
  intros i a b. unfold breakdown_host. rewrite !list_lookup_fmap.
  intros Ha Hb. apply fmap_Some in Ha as (k & Hk & ->). apply fmap_Some in Hb as (k' & Hk' & ->).
  apply lookup_seq in Hk as [-> Hk]. apply lookup_seq in Hk' as [-> Hk'].
  unfold last_n. set (l := split_dot s) in *.
  replace (length l - (1 + i)) with (S (length l - (1 + S i))) by lia.
  apply join_drop_lt. lia.
Qed.

Lemma breakdown_host_length s : length (breakdown_host s) = S (dots s).
Proof. unfold breakdown_host. by rewrite fmap_length, seq_length, split_length. Qed.

Lemma breakdown_host_last s : last (breakdown_host s) = Some s.
Proof.
  unfold breakdown_host. rewrite last_lookup, list_lookup_fmap, fmap_length, seq_length.
  rewrite lookup_seq_lt by (rewrite split_length; lia). simpl. unfold last_n.
  replace (length (split_dot s) - S (Init.Nat.pred (length (split_dot s)))) with 0 by (rewrite split_length; simpl; lia).
  by rewrite drop_0, join_split.
Qed.

(** ** breakdown_ipaddr *)

Lemma dots_app a b : dots (a ++ b) = dots a + dots b.
Proof. induction a as [|c a IH]; [done|]. rewrite <- app_comm_cons, !dots_cons, IH. lia. Qed.

Lemma dots_free p : 46%N ∉ p -> dots p = 0.
Proof.
  induction p as [|c p IH]; intros H; [done|]. rewrite dots_cons.
  apply not_elem_of_cons in H as [Hc H]. rewrite decide_False by done. by rewrite IH.
Qed.

Lemma dots_join l : l <> [] -> Forall (fun p => 46%N ∉ p) l -> S (dots (join_dot l)) = length l.
Proof. intros H1 H2. by rewrite <- split_length, split_join. Qed.

Lemma breakdown_ipaddr_lookup s i : i < 4 ->
  exists t, breakdown_ipaddr s !! i = Some t /\ dot_prefix t s /\ dots t = min i (dots s).
Proof.
  intros Hi. unfold breakdown_ipaddr. rewrite list_lookup_fmap, lookup_seq_lt by done. simpl.
  eexists; split; [done|]. set (l := split_dot s).
  assert (length l = S (dots s)) as Hl by apply split_length.
  assert (take (S i) l <> []) as Hne.
  { intros E. apply (f_equal length) in E. rewrite take_length in E. cbn [length] in E. lia. }
  split.
  - destruct (decide (length l <= S i)) as [Hle|Hgt].
    + left. rewrite take_ge by done. apply join_split.
    + right. exists (join_dot (drop (S i) l)). rewrite <- join_app; [|done|].
      * rewrite take_drop. symmetry. apply join_split.
      * intros E. apply (f_equal length) in E. rewrite drop_length in E. cbn [length] in E. lia.
  - assert (S (dots (join_dot (take (S i) l))) = S (min i (dots s))); [|lia].
    rewrite dots_join; [|done|apply Forall_take, split_dot_free].
    rewrite take_length. lia.
Qed.

Lemma breakdown_ipaddr_length s : length (breakdown_ipaddr s) = 4.
Proof. done. Qed.

(** A prefix is determined by its number of dots. *)
Lemma dot_prefix_unique s t t' : dot_prefix t s -> dot_prefix t' s -> dots t = dots t' -> t = t'.
Proof.
  assert (forall t, dot_prefix t s -> t = join_dot (take (S (dots t)) (split_dot s))) as H.
  { intros u [->|[x ->]].
    - rewrite take_ge; [by rewrite join_split|by rewrite split_length].
    - rewrite split_app, take_app_le by (by rewrite split_length). rewrite take_ge by (by rewrite split_length).
      by rewrite join_split. }
  intros H1 H2 E. rewrite (H t), (H t') by done. by rewrite E.
Qed.

Lemma top_two_spec s : dot_suffix (top_two s) s /\ dots (top_two s) = min 1 (dots s).
Proof.
  unfold top_two. set (l := split_dot s). assert (length l = S (dots s)) as Hl by apply split_length.
  unfold last_n. split.
  - destruct (decide (length l <= 2)).
    + left. replace (length l - 2) with 0 by lia. rewrite drop_0. apply join_split.
    + right. exists (join_dot (take (length l - 2) l)). rewrite <- join_app.
      * rewrite take_drop. symmetry. apply join_split.
      * intros E. apply (f_equal length) in E. rewrite take_length in E. cbn [length] in E. lia.
      * intros E. apply (f_equal length) in E. rewrite drop_length in E. cbn [length] in E. lia.
  - assert (S (dots (join_dot (drop (length l - 2) l))) = S (min 1 (dots s))); [|lia].
    rewrite dots_join.
    + rewrite drop_length. lia.
    + intros E. apply (f_equal length) in E. rewrite drop_length in E. cbn [length] in E. lia.
    + apply Forall_drop, split_dot_free.
Qed.
