(** * Lemmas about the names of pairs of words (C141) *)
From Coq Require Import String.
From Verif Require Import Py NumModel ClassifierModel TrainSpec TrainProofs PairNameSpec.

(** ** repr *)
Lemma hexdigit_inj a b : hexdigit a = hexdigit b -> a = b.
Proof. unfold hexdigit. destruct (N.ltb_spec a 10), (N.ltb_spec b 10); lia. Qed.

Lemma repr_byte_shape q c :
  (repr_byte q c = [92%N; c] /\ (c = q \/ c = 92%N)) \/
  (c <> q /\ c <> 92%N /\ ((repr_byte q c = [92; 116]%N /\ c = 9%N) \/ (repr_byte q c = [92; 110]%N /\ c = 10%N) \/ (repr_byte q c = [92; 114]%N /\ c = 13%N) \/
   (repr_byte q c = [92%N; 120%N; hexdigit (c / 16); hexdigit (c mod 16)]) \/ repr_byte q c = [c])).
Proof.
  unfold repr_byte. destruct (N.eqb_spec c q); [subst; left; cbn; auto|]. destruct (N.eqb_spec c 92); [left; cbn; auto|]. cbn [orb]. right. split; [done|]. split; [done|].
  destruct (N.eqb_spec c 9); [auto|]. destruct (N.eqb_spec c 10); [auto|]. destruct (N.eqb_spec c 13); [auto|].
  destruct (_ || _); auto.
Qed.

Lemma repr_byte_split q c d r r' : q <> 116%N -> q <> 110%N -> q <> 114%N -> q <> 120%N ->
  repr_byte q c ++ r = repr_byte q d ++ r' -> c = d /\ r = r'.
Proof.
  intros H1 H2 H3 H4.
  destruct (repr_byte_shape q c) as [[-> Hc]|(Hq&H92&[[-> Hc]|[[-> Hc]|[[-> Hc]|[->| ->]]]])];
    destruct (repr_byte_shape q d) as [[-> Hd]|(Hq'&H92'&[[-> Hd]|[[-> Hd]|[[-> Hd]|[->| ->]]]])];
    cbn [app]; intros E; simplify_eq; try (split; congruence || done); try (destruct Hc; congruence); try (destruct Hd; congruence).
  repeat match goal with E : hexdigit _ = hexdigit _ |- _ => apply hexdigit_inj in E end. split; [|done].
  rewrite (N.div_mod c 16), (N.div_mod d 16) by done. congruence.
Qed.

Lemma repr_byte_start q c r r' : q <> 92%N -> repr_byte q c ++ r = q :: r' -> False.
Proof.
  intros H.
  destruct (repr_byte_shape q c) as [[-> Hc]|(Hq&H92&[[-> Hc]|[[-> Hc]|[[-> Hc]|[->| ->]]]])]; cbn [app]; intros E; by simplify_eq.
Qed.

Definition quote (q : N) : Prop := q = 34%N \/ q = 39%N.
Lemma repr_body q a : quote q -> forall b r r',
  mjoin (repr_byte q <$> a) ++ q :: r = mjoin (repr_byte q <$> b) ++ q :: r' -> a = b /\ r = r'.
Proof.
  intros Hq. assert (q <> 92%N /\ q <> 116%N /\ q <> 110%N /\ q <> 114%N /\ q <> 120%N) as (?&?&?&?&?) by (destruct Hq as [-> | ->]; done).
  induction a as [|c a IH]; intros [|d b] r r' E; cbn [fmap list_fmap mjoin list_join app] in E.
  - by simplify_eq.
  - exfalso. rewrite <- app_assoc in E. by eapply repr_byte_start; [|symmetry].
  - exfalso. rewrite <- app_assoc in E. by eapply repr_byte_start.
  - rewrite <- !app_assoc in E. apply repr_byte_split in E as [-> E]; [|done..]. apply IH in E as [-> ->]. done.
Qed.

Lemma repr_split a b r r' : repr_bytes a ++ r = repr_bytes b ++ r' -> a = b /\ r = r'.
Proof.
  assert (forall a, exists q, quote q /\ repr_bytes a = 98%N :: q :: mjoin (repr_byte q <$> a) ++ [q]) as Hq.
  { intros x. unfold repr_bytes. eexists. split; [|reflexivity]. destruct (_ && _); unfold quote; auto. }
  destruct (Hq a) as (q&H1&->). destruct (Hq b) as (q'&H2&->). cbn [app]. rewrite <- !app_assoc. cbn [app]. intros E.
  injection E as <- E. by apply repr_body in E.
Qed.

Lemma pair_name_inj x y x' y' : pair_name x y = pair_name x' y' -> x = x' /\ y = y'.
Proof.
  unfold pair_name. intros E. apply app_inv_head in E. apply repr_split in E as [-> E]. change (32%N :: repr_bytes y = 32%N :: repr_bytes y') in E. apply (f_equal tail) in E. cbn [tail] in E. split; [done|].
  apply (repr_split y y' [] []). by rewrite E.
Qed.

(** Text words *)
Lemma text_pair_inj x y x' y' : 32%N ∉ x -> 32%N ∉ x' -> bigram (WStr x) (WStr y) = bigram (WStr x') (WStr y') -> x = x' /\ y = y'.
Proof.
  intros Hx Hx' E. unfold bigram in E. injection E as E. cbn [pystr] in E.
  revert x' Hx' E. induction x as [|c x IH]; intros [|c' x'] Hx' E; cbn [app] in E.
  - by injection E as ->.
  - injection E as <- _. exfalso. apply Hx'. by left.
  - injection E as -> _. exfalso. apply Hx. by left.
  - injection E as <- E. destruct (IH ltac:(intros H; apply Hx; by right) x' ltac:(intros H; apply Hx'; by right) E) as [-> ->]. done.
Qed.

(** ** Records *)
Lemma wstr_inj a b : WStr a = WStr b -> a = b.
Proof. congruence. Qed.
Lemma bigram_bytes x y : bigram (WBytes x) (WBytes y) = WStr (pair_name x y).
Proof. done. Qed.

Lemma neighbours_lookup x y l : neighbours x y l <-> exists i, l !! i = Some x /\ l !! S i = Some y.
Proof.
  split.
  - intros (l1&l2&->). exists (length l1). split; [by apply list_lookup_middle|].
    rewrite lookup_app_r by lia. by replace (S (length l1) - length l1) with 1 by lia.
  - intros (i&H1&H2). exists (take i l), (drop (S (S i)) l). rewrite <- (take_drop_middle l i x H1) at 1. f_equal. f_equal.
    by rewrite (drop_S l y (S i) H2).
Qed.

Lemma pair_tokens x y l : tokens_of true (SList (WBytes <$> l)) (WStr (pair_name x y)) <-> neighbours x y l.
Proof.
  rewrite neighbours_lookup. cbn [tokens_of]. split.
  - intros [(i&u&Hu&_&E)|(i&u&v&Hu&Hv&E)].
    + rewrite list_lookup_fmap in Hu. destruct (l !! i); cbn in Hu; by simplify_eq.
    + rewrite list_lookup_fmap in Hu, Hv. destruct (l !! i) as [u'|] eqn:E1; cbn in Hu; [|done]. destruct (l !! S i) as [v'|] eqn:E2; cbn in Hv; [|done].
      injection Hu as <-. injection Hv as <-. rewrite bigram_bytes in E. apply wstr_inj, pair_name_inj in E as [-> ->]. by exists i.
  - intros (i&H1&H2). right. exists i, (WBytes x), (WBytes y). rewrite !list_lookup_fmap, H1, H2. done.
Qed.
Lemma word_tokens x l : tokens_of true (SList (WBytes <$> l)) (WBytes x) <-> before_last x l.
Proof.
  unfold before_last. cbn [tokens_of]. split.
  - intros [(i&u&Hu&Hl&E)|(i&u&v&_&_&E)]; [|done]. subst u. rewrite list_lookup_fmap in Hu. destruct (l !! i) as [u|] eqn:E; cbn in Hu; [|done].
    injection Hu as ->. rewrite fmap_length in Hl. destruct (lookup_lt_is_Some_2 l (S i) Hl) as [y Hy]. exists y. apply neighbours_lookup. by exists i.
  - intros (y&Hn). apply neighbours_lookup in Hn as (i&H1&H2). left. exists i, (WBytes x). rewrite list_lookup_fmap, H1, fmap_length.
    split_and!; [done|by eapply lookup_lt_Some|done].
Qed.

Section learned.
  Context {A : num} (it : set_order) (Hit : set_order_ok it).
  Definition lessons (ms : list (list codes * bool)) : list call := (fun m => CLearn (SList (WBytes <$> m.1)) m.2) <$> ms.

  Lemma lessons_matched ms : exists msgs, matched true (lessons ms) msgs /\
    forall b w (P : list codes -> Prop) (HD : forall l, Decision (P l)), (forall l, tokens_of true (SList (WBytes <$> l)) w <-> P l) ->
      containing b w msgs = how_many b P ms.
  Proof.
    induction ms as [|[l c] ms (msgs&IH&IH2)] using rev_ind; [exists []; split; [constructor|done]|].
    exists ((toks true (SList (WBytes <$> l)), c) :: msgs). split.
    - unfold lessons. rewrite fmap_app. cbn [fmap list_fmap fst snd]. apply matched_learn; [exact IH|]. intros w. apply toks_spec.
    - intros b w P HD HP. cbn [containing]. rewrite (IH2 b w P HD HP). unfold how_many. rewrite filter_app, app_length. rewrite filter_cons, filter_nil.
      cbn [fst snd]. destruct (decide (c = b /\ P l)) as [[-> Hl]|Hn].
      + rewrite (bool_decide_true (w ∈ toks true (SList (WBytes <$> l)))) by (rewrite toks_spec; by apply HP).
        assert (eqb b b = true) as -> by (by destruct b). cbn [andb length]. lia.
      + destruct (eqb b c && bool_decide (w ∈ toks true (SList (WBytes <$> l)))) eqn:E; [|cbn [length]; lia].
        exfalso. apply andb_true_iff in E as [E1 E2]. apply bool_decide_eq_true in E2. rewrite toks_spec in E2. apply Hn. split; [by destruct b, c|by apply HP].
  Qed.

  Lemma pair_records ms :
    let '(o, rs) := run mem_backend it (lessons ms) (c_new true ∅ : obj A (gmap pyword winfo)) in
    Forall training_ok rs /\
    (forall x y, o_store o !! WStr (pair_name x y) = record_of (how_many true (neighbours x y) ms) (how_many false (neighbours x y) ms)) /\
    (forall x, o_store o !! WBytes x = record_of (how_many true (before_last x) ms) (how_many false (before_last x) ms)).
  Proof.
    destruct (lessons_matched ms) as (msgs&Hm&Hc). pose proof (matched_refines (A:=A) it Hit true _ _ Hm) as HR.
    destruct (run mem_backend it (lessons ms) (c_new true ∅)) as [o rs]. destruct HR as [(_&_&_&Hw) HF]. split; [done|]. split.
    - intros x y. rewrite Hw. unfold expected_record, record_of. by rewrite !(Hc _ _ (neighbours x y) _ (pair_tokens x y)).
    - intros x. rewrite Hw. unfold expected_record, record_of. by rewrite !(Hc _ _ (before_last x) _ (word_tokens x)).
  Qed.
End learned.

Lemma pair_is_text u v x : bigram u v <> WBytes x.
Proof. done. Qed.
Lemma pairs_confused :
  (forall a b c, bigram (WStr (a ++ [32%N] ++ b)) (WStr c) = bigram (WStr a) (WStr (b ++ [32%N] ++ c))) /\
  (forall x w, bigram (WStr (repr_bytes x)) w = bigram (WBytes x) w) /\
  (forall x y, WStr (pair_name x y) = bigram (WBytes x) (WBytes y)).
Proof.
  split_and!; [|done|done]. intros a b c. unfold bigram. cbn [pystr]. f_equal. f_equal. by rewrite <- !app_assoc.
Qed.
