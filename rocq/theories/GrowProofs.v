(** * Bounds on number and size of tokens *)
From Coq Require Import String.
From Verif Require Import Py NumModel ClassifierModel RegexSpec StripModel StripSpec StripProofs TokenModel TokenSpec TokenProofs
  TrainSpec TrainProofs GrowSpec.
Local Open Scope nat_scope.

Notation lengths ws := (sum_list_with length (ws : list codes)).

Lemma total_app a b : total_size (a ++ b) = total_size a + total_size b.
Proof. apply sum_list_with_app. Qed.

Lemma lower_of_length b t : Forall2 lower_of b t -> length b = length t.
Proof. apply Forall2_length. Qed.

Lemma found_lengths P x s ws : found P x s ws -> lengths ws <= length s.
Proof.
  induction 1 as [|x s k w y ws (->&_&_) _ IH]; simpl; [lia|]. rewrite !app_length. lia.
Qed.

Lemma found_each P x s ws : found P x s ws -> Forall (fun w => exists x y, P x w y) ws.
Proof. induction 1 as [|x s k w y ws (_&HP&_) _ IH]; constructor; eauto. Qed.

Lemma stripped_lengths x s kept ws : stripped url_here at_once x s kept ws -> length kept + lengths ws <= length s.
Proof.
  induction 1 as [|x s k w y HL HN|x s k w y k' e z kept ws (->&_&_) (->&_&_) _ IH]; simpl; [lia| |].
  - exfalso. by apply (HN [] [] y).
  - rewrite !app_length. lia.
Qed.

Lemma words_lengths t ws : words t ws -> lengths ws <= length t.
Proof. induction 1; simpl; [lia|lia|]. rewrite app_length. lia. Qed.

Lemma digits_fuel_length fuel : forall n acc, length (digits_fuel fuel n acc) <= 1 + N.to_nat (n / 10) + length acc.
Proof.
  induction fuel as [|fuel IH]; intros n acc; cbn [digits_fuel].
  - generalize (N.to_nat (n / 10)). lia.
  - destruct (N.eqb_spec (n / 10) 0) as [E|E].
    + rewrite E. simpl. lia.
    + etrans; [apply IH|]. cbn [length].
      assert (n / 10 / 10 < n / 10)%N as Hlt by (apply N.div_lt; [by apply N.neq_0_lt_0|done]).
      revert Hlt. generalize (n / 10)%N as m. intros m. generalize (m / 10)%N. intros k Hlt. lia.
Qed.
Lemma digits_length n : length (digits n) <= 1 + N.to_nat (n / 10).
Proof. unfold digits. etrans; [apply digits_fuel_length|]. cbn [length]. generalize (N.to_nat (n / 10)). lia. Qed.

Lemma word_size w ts : word_tokens w ts -> 3 * length ts <= length w /\ total_size ts <= length w.
Proof.
  intros [[H ->]|[[H ->]|[H (t&(c&rest&n&->&Hn&->)&->)]]]; unfold total_size.
  - simpl. lia.
  - simpl. lia.
  - pose proof (digits_length (10 * N.of_nat n)) as Hd.
    rewrite (N.mul_comm 10), N.div_mul in Hd by done.
    rewrite Nat2N.id in Hd. rewrite (N.mul_comm 10). revert Hd. generalize (digits (N.of_nat n * 10)). intros ds Hd.
    cbn [length] in H, Hn |- *. cbn [sum_list_with token_size]. rewrite !app_length. simpl. lia.
Qed.

Lemma weave_length : forall cs seps, length cs = S (length seps) -> length (weave cs seps) = lengths cs + length seps.
Proof.
  induction cs as [|c cs IH]; intros seps E; [done|]. destruct seps as [|s seps].
  - destruct cs; [|done]. simpl. lia.
  - simpl. rewrite app_length. simpl. rewrite IH; [lia|]. simpl in E. lia.
Qed.

Lemma url_size w ts : url_token_list w ts -> length ts <= length w /\ total_size ts <= 4 * length w.
Proof.
  intros (proto&guts&cs&(->&Hp&_&_)&(seps&E&_&_&->)&->). unfold total_size.
  assert (3 <= length proto).
  { unfold protocols in Hp. repeat (apply elem_of_cons in Hp as [-> | Hp]; [simpl; lia|]). by apply elem_of_nil in Hp. }
  cbn [length sum_list_with token_size]. rewrite fmap_length.
  assert (forall cs, sum_list_with token_size ((fun c => WBytes (str "url:" ++ c)) <$> cs) = 4 * length cs + lengths cs) as ->.
  { clear. induction cs as [|c cs IH]; [done|]. rewrite fmap_cons. cbn [sum_list_with token_size length].
    rewrite IH, app_length. simpl. lia. }
  rewrite !app_length. pose proof (weave_length cs seps E) as ->. simpl. unfold codes in *. lia.
Qed.

Lemma repr_byte_length q c : length (repr_byte q c) <= 4.
Proof. unfold repr_byte. repeat case_match; simpl; lia. Qed.
Lemma repr_join_length q b : length (mjoin (repr_byte q <$> b)) <= 4 * length b.
Proof.
  induction b as [|c b IH]; [simpl; lia|]. rewrite fmap_cons. cbn [mjoin list_join]. rewrite app_length.
  pose proof (repr_byte_length q c). cbn [length]. etrans; [apply Nat.add_le_mono; [exact H|exact IH]|lia].
Qed.
Lemma repr_bytes_length b : length (repr_bytes b) <= 3 + 4 * length b.
Proof.
  unfold repr_bytes. cbn [length]. rewrite app_length. cbn [length].
  match goal with |- context [repr_byte ?q <$> b] => pose proof (repr_join_length q b) end. lia.
Qed.

Lemma clue_length x w y : virus_clue x w y -> 7 <= length w.
Proof.
  intros [(sl&sp&name&->&_&_&Hn&_)|[(q&->&_)|(name&q&->&Hn&_)]]; rewrite !app_length.
  - repeat (apply elem_of_cons in Hn as [-> | Hn]; [simpl; lia|]). by apply elem_of_nil in Hn.
  - simpl. lia.
  - repeat (apply elem_of_cons in Hn as [-> | Hn]; [simpl; lia|]). by apply elem_of_nil in Hn.
Qed.

Lemma clues_size x s ws : found virus_clue x s ws ->
  7 * length ws <= length s /\ total_size ((fun w => WStr (str "virus:" ++ repr_bytes w)) <$> ws) <= 6 * length s.
Proof.
  intros HF. pose proof (found_lengths _ _ _ _ HF) as HL. apply found_each in HF.
  assert (7 * length ws <= lengths ws /\ total_size ((fun w => WStr (str "virus:" ++ repr_bytes w)) <$> ws) <= 6 * lengths ws); [|lia].
  clear HL. induction HF as [|w ws (x'&y'&Hc) _ [IH1 IH2]]; [unfold total_size; simpl; lia|].
  apply clue_length in Hc. split; [simpl; simpl in IH1; lia|].
  unfold total_size in *. cbn [fmap list_fmap sum_list_with token_size].
  rewrite app_length. pose proof (repr_bytes_length w). simpl in *. lia.
Qed.

Lemma join_size {X} (R : X -> list pyword -> Prop) (f g : X -> nat) xs tss :
  (forall x ts, R x ts -> length ts <= f x /\ total_size ts <= g x) -> Forall2 R xs tss ->
  length (mjoin tss) <= sum_list_with f xs /\ total_size (mjoin tss) <= sum_list_with g xs.
Proof.
  intros HR. induction 1 as [|x ts xs tss Hx _ [IH1 IH2]]; [unfold total_size; simpl; lia|].
  apply HR in Hx as [H1 H2]. cbn [mjoin list_join]. rewrite app_length, total_app. simpl.
  split; (etrans; [apply Nat.add_le_mono; [eassumption|eassumption]|lia]).
Qed.

Lemma sum_scale k (ws : list codes) : sum_list_with (fun w => k * length w) ws = k * lengths ws.
Proof. induction ws as [|w ws IH]; simpl; [lia|]. rewrite IH. lia. Qed.

Lemma bounds_add t t1 t2 t3 t' u w c cs a1 a2 b1 b2 :
  t1 + u <= t -> t2 <= t1 -> t3 <= t2 -> t' <= t3 -> w <= t' -> 7 * c <= t -> cs <= 6 * t ->
  a1 <= u -> a2 <= 4 * u -> b1 <= w -> b2 <= w -> 7 * (c + (a1 + b1)) <= 8 * t /\ cs + (a2 + b2) <= 10 * t.
Proof. lia. Qed.

Lemma body_size b ts : body_tokens b ts -> 7 * length ts <= 8 * length b /\ total_size ts <= 10 * length b.
Proof.
  intros (t&t'&urls&ws&clues&tss&wss&Hb&(t1&t2&t3&s2&s3&s4&Hu&H2&H3&H4)&Hw&Hc&Ht&Hv&->).
  rewrite (lower_of_length _ _ Hb).
  apply stripped_lengths in Hu.
  apply stripped_sublist, sublist_length in H2. apply stripped_sublist, sublist_length in H3. apply stripped_sublist, sublist_length in H4.
  apply words_lengths in Hw. apply clues_size in Hc as [Hc1 Hc2].
  destruct (join_size _ length (fun w => 4 * length w) _ _ url_size Ht) as [Ht1 Ht2]. rewrite sum_scale in Ht2.
  destruct (join_size word_tokens length length ws wss) as [Hv1 Hv2]; [|done|].
  { intros w ts' Hw'. apply word_size in Hw'. lia. }
  rewrite !app_length, !total_app, fmap_length.
  exact (bounds_add _ _ _ _ _ _ _ _ _ _ _ _ _ Hu H2 H3 H4 Hw Hc1 Hc2 Ht1 Ht2 Hv1 Hv2).
Qed.

Lemma payload_size b ts : tokenize_payload b = (ts, None) -> 7 * length ts <= 8 * length b /\ total_size ts <= 10 * length b.
Proof.
  intros E. apply body_size. destruct (payload_cases b) as [(ts'&H1&H2&H3)|[H1 H2]]; [congruence|].
  rewrite E in H1. done.
Qed.

(** ** The number of records *)
Lemma containing_none b w ms : Forall (fun m : message => w ∉ m.1) ms -> containing b w ms = 0%Z.
Proof.
  induction 1 as [|[ws b'] ms Hw _ IH]; [done|]. simpl in *. rewrite IH, bool_decide_eq_false_2 by done.
  by rewrite andb_false_r.
Qed.

Lemma set_size (l : list pyword) : size (list_to_set l : gset pyword) <= length l.
Proof.
  induction l as [|x l IH]; [vm_compute; lia|]. cbn [list_to_set length]. rewrite size_union_alt, size_singleton.
  assert (size (list_to_set l ∖ {[x]} : gset pyword) <= size (list_to_set l : gset pyword)); [|lia].
  apply subseteq_size, subseteq_difference_l. done.
Qed.

Lemma records_bound (A : num) (it : set_order) (bigrams : bool) (h : list call) (ms : list message) :
  set_order_ok it -> matched bigrams h ms ->
  size (o_store (fst (run mem_backend it h (c_new bigrams ∅ : obj A (gmap pyword winfo))))) <= all_words ms.
Proof.
  intros Hit Hm. pose proof (matched_refines it Hit bigrams h ms (A:=A) Hm) as H.
  destruct (run _ it h _) as [o rs]. destruct H as [(_&_&_&Hs) _]. simpl.
  rewrite <- size_dom.
  assert (dom (o_store o) ⊆ list_to_set (ms ≫= (fun m : message => m.1))) as Hsub.
  { intros w [r Hw]%elem_of_dom. rewrite Hs in Hw. unfold expected_record in Hw.
    apply elem_of_list_to_set. destruct (decide (Forall (fun m : message => w ∉ m.1) ms)) as [Hn|Hn].
    - rewrite !containing_none in Hw by done. done.
    - apply not_Forall_Exists, Exists_exists in Hn as (m&Hin&Hw'); [|apply _].
      apply elem_of_list_bind. exists m. split; [|done]. by apply dec_stable in Hw'. }
  etrans; [by apply subseteq_size|]. etrans; [apply set_size|].
  clear. induction ms as [|m ms IH]; [done|]. rewrite bind_cons, app_length. unfold all_words in *. cbn [sum_list_with]. lia.
Qed.

Lemma learned_texts (A : num) (it : set_order) (texts : list (codes * bool)) (tss : list (list pyword)) :
  set_order_ok it -> Forall2 (fun b ts => tokenize_payload b.1 = (ts, None)) texts tss ->
  7 * size (o_store (fst (run mem_backend it (zip_with (fun b ts => CLearn (SIter ts) b.2) texts tss)
                            (c_new false ∅ : obj A (gmap pyword winfo)))))
    <= 8 * sum_list_with (fun b => length b.1) texts.
Proof.
  intros Hit HF.
  assert (forall h ms, matched false h ms -> exists ms', matched false (h ++ zip_with (fun b ts => CLearn (SIter ts) b.2) texts tss) ms' /\
            7 * all_words ms' <= 7 * all_words ms + 8 * sum_list_with (fun b : codes * bool => length b.1) texts) as Hall.
  { induction HF as [|[b l] ts texts tss Hb _ IH]; intros h ms Hm.
    - exists ms. rewrite app_nil_r. split; [done|]. simpl. lia.
    - destruct (IH (h ++ [CLearn (SIter ts) l]) ((ts, l) :: ms)) as (ms'&Hm'&Hs').
      { by apply matched_learn. }
      exists ms'. rewrite <- app_assoc in Hm'. split; [exact Hm'|].
      pose proof (payload_size _ _ Hb) as [Hp _].
      unfold all_words in *. cbn [sum_list_with fst] in *. unfold codes in *. lia. }
  destruct (Hall [] [] ltac:(constructor)) as (ms'&Hm&Hs).
  pose proof (records_bound A it false _ _ Hit Hm) as Hr. etrans; [apply Nat.mul_le_mono_l; exact Hr|].
  etrans; [exact Hs|]. apply Nat.le_refl.
Qed.
