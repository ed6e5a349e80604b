(** * The matcher finds exactly the matches *)
From Coq Require Import Lia.
From Verif Require Import Py Regex RegexSpec.

(** The position after [x] in a text whose rest is [s]. *)
Definition at_ (x s : codes) : cur := Cur (reverse x) s.

Lemma at_eta c : c = at_ (reverse (pre c)) (post c).
Proof. destruct c. unfold at_. simpl. by rewrite reverse_involutive. Qed.

Lemma at_inj x s x' s' : at_ x s = at_ x' s' -> x = x' /\ s = s'.
Proof. intros [= H ->]. split; [|done]. apply (f_equal reverse) in H. by rewrite !reverse_involutive in H. Qed.

Lemma between_at x w y : between (at_ x (w ++ y)) (at_ (x ++ w) y) = w.
Proof. unfold between. simpl. rewrite app_length. replace (_ + _ - _) with (length w) by lia. apply take_app. Qed.

Lemma elem_flat_map {A B} (f : A -> list B) l y : y ∈ flat_map f l <-> exists x, x ∈ l /\ y ∈ f x.
Proof. rewrite elem_of_list_In, in_flat_map. setoid_rewrite elem_of_list_In. done. Qed.

(** The results of the matcher at a position: what was consumed. *)
Definition results (f : cur -> list (cur * caps)) (P : codes -> codes -> codes -> Prop) : Prop :=
  forall x s,
  (forall d g, (d, g) ∈ f (at_ x s) -> exists w y, s = w ++ y /\ d = at_ (x ++ w) y /\ P x w y) /\
  (forall w y, s = w ++ y -> P x w y -> exists g, (at_ (x ++ w) y, g) ∈ f (at_ x s)).

Lemma results_star f P : results f P -> forall n x s,
  (forall d g, (d, g) ∈ star f n (at_ x s) -> exists w y, s = w ++ y /\ d = at_ (x ++ w) y /\ repeated P x w y) /\
  (length s <= n -> forall w y, s = w ++ y -> repeated P x w y -> exists g, (at_ (x ++ w) y, g) ∈ star f n (at_ x s)).
Proof.
  intros Hf. induction n as [|n IH]; intros x s; split.
  - intros d g Hd. simpl in Hd. apply elem_of_list_singleton in Hd. injection Hd as -> ->.
    exists [], s. rewrite app_nil_r. split_and!; [done|done|constructor].
  - intros Hl w y -> HR. assert (w = []) as -> by (destruct w; [done|simpl in Hl; lia]).
    rewrite app_nil_r. exists []. simpl. by apply elem_of_list_singleton.
  - intros d g Hd. simpl in Hd. apply elem_of_app in Hd as [Hd|Hd].
    + apply elem_flat_map in Hd as ([d1 g1] & H1 & H2).
      destruct (proj1 (Hf x s) d1 g1 H1) as (w1 & y1 & -> & -> & HP). simpl in H2.
      destruct (Nat.ltb_spec (length y1) (length (w1 ++ y1))) as [Hlt|]; [|by apply elem_of_nil in H2].
      apply elem_of_list_fmap in H2 as ([e h] & E & H2). injection E as -> ->.
      destruct (proj1 (IH (x ++ w1) y1) e h H2) as (w2 & y2 & -> & -> & HR).
      exists (w1 ++ w2), y2. rewrite <- app_assoc. split_and!; [done|by rewrite app_assoc|].
      apply rep_cons; [|done|done]. intros ->. simpl in Hlt. lia.
    + apply elem_of_list_singleton in Hd. injection Hd as -> ->.
      exists [], s. rewrite app_nil_r. split_and!; [done|done|constructor].
  - intros Hl w y -> HR. simpl. inversion HR as [|? w1 v ? Hne HP HR']; subst.
    + exists []. rewrite app_nil_r. apply elem_of_app. right. by apply elem_of_list_singleton.
    + rewrite <- app_assoc in *.
      destruct (proj2 (Hf x (w1 ++ v ++ y)) w1 (v ++ y) eq_refl HP) as [g1 H1].
      rewrite app_length in Hl. assert (0 < length w1) by (destruct w1; [done|simpl; lia]).
      destruct (proj2 (IH (x ++ w1) (v ++ y)) ltac:(lia) v y eq_refl HR') as [g2 H2].
      rewrite <- app_assoc in H2. exists (g2 ++ g1).
      apply elem_of_app. left. apply elem_flat_map. exists (at_ (x ++ w1) (v ++ y), g1). split; [done|].
      simpl. destruct (Nat.ltb_spec (length (v ++ y)) (length (w1 ++ v ++ y))) as [|H3]; [|rewrite (app_length w1) in H3; lia].
      apply elem_of_list_fmap. by exists (at_ (x ++ w1 ++ v) y, g2).
Qed.

Lemma head_word_last x : head_word (reverse x) = word_at_end x.
Proof.
  unfold word_at_end. induction x as [|c x' _] using rev_ind.
  - done.
  - by rewrite reverse_snoc, last_snoc.
Qed.

Lemma at_bol_spec x s : at_bol (at_ x s) = true <-> x = [] \/ exists x', x = x' ++ [10%N].
Proof.
  unfold at_bol, at_. simpl. induction x as [|c x' _] using rev_ind; simpl; [by split; [left|]|].
  rewrite reverse_snoc, N.eqb_eq. split.
  - intros ->. right. by exists x'.
  - intros [H|[x'' H]]; [by destruct x'|]. by apply app_inj_tail in H as [_ ->].
Qed.

Lemma at_eol_spec x s : at_eol (at_ x s) = true <-> s = [] \/ exists s', s = 10%N :: s'.
Proof.
  unfold at_eol. simpl. destruct s as [|c s]; [by split; [left|]|].
  rewrite N.eqb_eq. split; [intros ->; right; by eexists|]. intros [H|[s' H]]; congruence.
Qed.

Lemma results_matches r : results (rmatch r) (matches r).
Proof.
  induction r as [|p|a IHa b IHb|a IHa b IHb|a IHa|n a IHa| | | |a IHa]; intros x s.
  - split.
    + intros d g H. apply elem_of_list_singleton in H. injection H as -> ->.
      exists [], s. by rewrite app_nil_r.
    + intros w y -> ->. exists []. rewrite app_nil_r. by apply elem_of_list_singleton.
  - split.
    + intros d g H. simpl in H. destruct s as [|c s]; [by apply elem_of_nil in H|].
      destruct (p c) eqn:E; [|by apply elem_of_nil in H]. apply elem_of_list_singleton in H. injection H as -> ->.
      exists [c], s. split_and!; [done| |by exists c]. unfold at_. by rewrite reverse_snoc.
    + intros w y -> (c & -> & E). exists []. simpl. rewrite E. apply elem_of_list_singleton.
      unfold at_. by rewrite reverse_snoc.
  - split.
    + intros d g H. simpl in H. apply elem_flat_map in H as ([d1 g1] & H1 & H2).
      apply elem_of_list_fmap in H2 as ([e h] & E & H2). injection E as -> ->.
      destruct (proj1 (IHa x s) _ _ H1) as (u & y1 & -> & -> & M1).
      destruct (proj1 (IHb (x ++ u) y1) _ _ H2) as (v & y2 & -> & -> & M2).
      exists (u ++ v), y2. rewrite <- !app_assoc. split_and!; [done|done|]. by exists u, v.
    + intros w y -> (u & v & -> & M1 & M2). rewrite <- app_assoc.
      destruct (proj2 (IHa x (u ++ v ++ y)) u (v ++ y) eq_refl M1) as [g1 H1].
      destruct (proj2 (IHb (x ++ u) (v ++ y)) v y eq_refl M2) as [g2 H2].
      exists (g2 ++ g1). simpl. apply elem_flat_map. eexists. split; [exact H1|]. simpl.
      apply elem_of_list_fmap. exists (at_ (x ++ u ++ v) y, g2). rewrite <- app_assoc in H2. done.
  - split.
    + intros d g H. simpl in H. apply elem_of_app in H as [H|H].
      * destruct (proj1 (IHa x s) _ _ H) as (w & y & -> & -> & M1). exists w, y. split_and!; try done. by left.
      * destruct (proj1 (IHb x s) _ _ H) as (w & y & -> & -> & M1). exists w, y. split_and!; try done. by right.
    + intros w y -> [M1|M1]; simpl.
      * destruct (proj2 (IHa x (w ++ y)) w y eq_refl M1) as [g H]. exists g. apply elem_of_app. by left.
      * destruct (proj2 (IHb x (w ++ y)) w y eq_refl M1) as [g H]. exists g. apply elem_of_app. by right.
  - split.
    + intros d g H. simpl in H. by apply (results_star _ _ IHa) in H.
    + intros w y -> M1. simpl. by apply (results_star _ _ IHa).
  - split.
    + intros d g H. simpl in H. apply elem_of_list_fmap in H as ([e h] & E & H). injection E as -> ->.
      destruct (proj1 (IHa x s) _ _ H) as (w & y & -> & -> & M1). by exists w, y.
    + intros w y -> M1. simpl. destruct (proj2 (IHa x (w ++ y)) w y eq_refl M1) as [g H].
      eexists. apply elem_of_list_fmap. by exists (at_ (x ++ w) y, g).
  - pose proof (at_bol_spec x s) as B. simpl. destruct (at_bol (at_ x s)); split.
    + intros d g H. apply elem_of_list_singleton in H. injection H as -> ->.
      exists [], s. rewrite app_nil_r. split_and!; try done. by apply B.
    + intros w y -> [-> _]. exists []. rewrite app_nil_r. by apply elem_of_list_singleton.
    + intros d g H. by apply elem_of_nil in H.
    + intros w y -> [-> H]. by apply B in H.
  - pose proof (at_eol_spec x s) as B. simpl. destruct (at_eol (at_ x s)); split.
    + intros d g H. apply elem_of_list_singleton in H. injection H as -> ->.
      exists [], s. rewrite app_nil_r. split_and!; try done. by apply B.
    + intros w y -> [-> _]. exists []. rewrite app_nil_r. by apply elem_of_list_singleton.
    + intros d g H. by apply elem_of_nil in H.
    + intros w y -> [-> H]. by apply B in H.
  - simpl. unfold at_wordb. simpl. rewrite head_word_last. change (head_word s) with (word_at_start s).
    destruct (xorb (word_at_end x) (word_at_start s)) eqn:E; split.
    + intros d g H. apply elem_of_list_singleton in H. injection H as -> ->.
      exists [], s. rewrite app_nil_r. split_and!; try done.
      by destruct (word_at_end x), (word_at_start s).
    + intros w y -> [-> _]. exists []. rewrite app_nil_r. by apply elem_of_list_singleton.
    + intros d g H. by apply elem_of_nil in H.
    + intros w y -> [-> H]. simpl in E. by destruct (word_at_end x), (word_at_start y).
  - simpl. destruct (rmatch a (at_ x s)) as [|[d0 g0] l] eqn:E; split.
    + intros d g H. apply elem_of_list_singleton in H. injection H as -> ->.
      exists [], s. rewrite app_nil_r. split_and!; try done. intros v z -> M1.
      destruct (proj2 (IHa x (v ++ z)) v z eq_refl M1) as [g H]. rewrite E in H. by apply elem_of_nil in H.
    + intros w y -> [-> _]. exists []. rewrite app_nil_r. by apply elem_of_list_singleton.
    + intros d g H. by apply elem_of_nil in H.
    + intros w y -> [-> H]. destruct (proj1 (IHa x ([] ++ y)) d0 g0) as (v & z & Hv & _ & M1).
      { rewrite E. left. }
      exfalso. by apply (H v z).
Qed.

(** ** match and search *)

Lemma rmatch1_some r x s d g : rmatch1 r (at_ x s) = Some (d, g) ->
  exists w y, s = w ++ y /\ d = at_ (x ++ w) y /\ matches r x w y.
Proof.
  unfold rmatch1. intros H. apply (proj1 (results_matches r x s) d g).
  destruct (rmatch r (at_ x s)) as [|p l] eqn:E; [done|]. simpl in H. injection H as ->. left.
Qed.

Lemma rmatch1_none r x s : rmatch1 r (at_ x s) = None <-> forall w y, s = w ++ y -> ~ matches r x w y.
Proof.
  unfold rmatch1. split.
  - intros H w y Es M1. destruct (proj2 (results_matches r x s) w y Es M1) as [g Hg].
    destruct (rmatch r (at_ x s)); [by apply elem_of_nil in Hg|done].
  - intros H. destruct (rmatch r (at_ x s)) as [|[d g] l] eqn:E; [done|]. exfalso.
    destruct (proj1 (results_matches r x s) d g) as (w & y & Es & _ & M1); [rewrite E; left|].
    by apply (H w y).
Qed.

Lemma at_cons x c s : Cur (c :: reverse x) s = at_ (x ++ [c]) s.
Proof. unfold at_. by rewrite reverse_snoc. Qed.

Lemma rsearch_spec r : forall s x,
  match rsearch_from r (reverse x) s with
  | None => nowhere (matches r) x s
  | Some (c, d, g) => exists k w y, leftmost (matches r) x s k w y /\
      c = at_ (x ++ k) (w ++ y) /\ d = at_ (x ++ k ++ w) y /\ rmatch1 r c = Some (d, g)
  end.
Proof.
  induction s as [|c s IH]; intros x; simpl.
  - change (Cur (reverse x) []) with (at_ x []). destruct (rmatch1 r (at_ x [])) as [[d g]|] eqn:E.
    + destruct (rmatch1_some r x [] d g E) as (w & y & H & -> & M1).
      symmetry in H. apply app_nil in H as [-> ->]. exists [], [], [].
      cbn [app]. rewrite app_nil_r in *. split_and!; try done. unfold leftmost. cbn [app].
      rewrite app_nil_r. split_and!; [done..|]. intros x' w' y' _ _. simpl. lia.
    + intros k w y H M1. symmetry in H. apply app_nil in H as [-> H]. apply app_nil in H as [-> ->].
      rewrite app_nil_r in M1. by apply (proj1 (rmatch1_none r x []) E [] []).
  - change (Cur (reverse x) (c :: s)) with (at_ x (c :: s)).
    destruct (rmatch1 r (at_ x (c :: s))) as [[d g]|] eqn:E.
    + destruct (rmatch1_some r x _ d g E) as (w & y & H & -> & M1). exists [], w, y.
      rewrite H in *. rewrite app_nil_r. split_and!; [|done..]. unfold leftmost. rewrite app_nil_r.
      split_and!; [done..|]. intros x' w' y' _ _. simpl. lia.
    + specialize (IH (x ++ [c])). rewrite reverse_snoc in IH.
      destruct (rsearch_from r (c :: reverse x) s) as [[[b d] g]|].
      * destruct IH as (k & w & y & (Es & M1 & HL) & -> & -> & H). exists (c :: k), w, y.
        rewrite <- !app_assoc in *. simpl in *. split_and!; try done. unfold leftmost. split_and!.
        -- by rewrite Es.
        -- done.
        -- intros [|c' x'] w' y' Es' M'; simpl in Es'.
           ++ exfalso. rewrite app_nil_r in M'. by apply (proj1 (rmatch1_none r x _) E w' y').
           ++ injection Es' as <- Es'. simpl. apply le_n_S. apply (HL x' w' y'); [done|].
              by rewrite <- app_assoc.
      * intros [|c' k] w y Es M1; simpl in Es.
        -- rewrite app_nil_r in M1. by apply (proj1 (rmatch1_none r x _) E w y).
        -- injection Es as <- Es. apply (IH k w y); [done|]. by rewrite <- app_assoc.
Qed.

Lemma rsearch_at r x s : rsearch r (at_ x s) = rsearch_from r (reverse x) s.
Proof. done. Qed.

Lemma nowhere_occurs P s : nowhere P [] s <-> ~ occurs P s.
Proof.
  split.
  - intros H (x & w & y & -> & HP). by apply (H x w y).
  - intros H x w y -> HP. apply H. by exists x, w, y.
Qed.

Lemma leftmost_not_nowhere P x s k w y : leftmost P x s k w y -> ~ nowhere P x s.
Proof. intros (Es & HP & _) H. by apply (H k w y). Qed.

Lemma leftmost_pos_unique P x s k w y k' w' y' :
  leftmost P x s k w y -> leftmost P x s k' w' y' -> k = k'.
Proof.
  intros (Es & HP & HL) (Es' & HP' & HL').
  assert (length k = length k') as E.
  { apply Nat.le_antisymm; [by apply (HL k' w' y')|by apply (HL' k w y)]. }
  rewrite Es in Es'. by apply app_inj_1 in Es' as [-> _].
Qed.

(** ** Shapes of expressions *)

Lemma repeated_chars p x w y : repeated (matches (RChr p)) x w y <-> forallb p w = true.
Proof.
  split.
  - induction 1 as [|x w v y _ (c & -> & Hc) _ IH]; [done|]. simpl. by rewrite Hc, IH.
  - revert x. induction w as [|c w IH]; intros x H; [constructor|]. simpl in H. apply andb_true_iff in H as [H1 H2].
    change (c :: w) with ([c] ++ w). constructor; [done|by exists c|by apply IH].
Qed.

Lemma matches_star_chars p x w y : matches (RStar (RChr p)) x w y <-> forallb p w = true.
Proof. apply repeated_chars. Qed.

Lemma matches_plus_chars p x w y : matches (rplus (RChr p)) x w y <-> w <> [] /\ forallb p w = true.
Proof.
  unfold rplus. cbn [matches]. split.
  - intros (u & v & -> & (c & -> & Hc) & H). apply repeated_chars in H. split; [done|]. simpl. by rewrite Hc.
  - intros [Hne H]. destruct w as [|c w]; [done|]. simpl in H. apply andb_true_iff in H as [H1 H2].
    exists [c], w. split_and!; [done|by exists c|by apply repeated_chars].
Qed.

Lemma matches_lit s x w y : matches (rlit s) x w y <-> w = s.
Proof.
  revert x w. induction s as [|c s IH]; intros x w; cbn [rlit matches]; [done|]. split.
  - intros (u & v & -> & (c' & -> & Hc) & H). apply N.eqb_eq in Hc as <-. apply IH in H as ->. done.
  - intros ->. exists [c], s. split_and!; [done| |by apply IH]. exists c. split; [done|]. apply N.eqb_refl.
Qed.

Lemma matches_opt a x w y : matches (ropt a) x w y <-> matches a x w y \/ w = [].
Proof. done. Qed.

Lemma matches_upto_chars n p x w y :
  matches (rupto n (RChr p)) x w y <-> length w <= n /\ forallb p w = true.
Proof.
  revert x w. induction n as [|n IH]; intros x w; cbn [rupto matches].
  - split; [by intros ->|]. intros [H _]. destruct w; [done|simpl in H; lia].
  - split.
    + intros [(u & v & -> & (c & -> & Hc) & H)| -> ]; [|split; [simpl; lia|done]].
      apply IH in H as [H1 H2]. simpl. rewrite Hc. split; [lia|done].
    + intros [H1 H2]. destruct w as [|c w]; [by right|]. left. simpl in H1, H2. apply andb_true_iff in H2 as [H2 H3].
      exists [c], w. split_and!; [done|by exists c|]. apply IH. split; [lia|done].
Qed.
