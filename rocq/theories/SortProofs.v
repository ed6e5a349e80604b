(** * Lemmas about orders on words and clues, and about the sort *)
From Coq Require Import Lia.
From Verif Require Import Py NumModel ClassifierModel.

(** ** The order on words *)

Lemma lex_eq a : forall b, lex a b = Eq <-> a = b.
Proof.
  induction a as [|x a IH]; intros [|y b]; simpl; try (split; [done|done]).
  destruct (N.compare_spec x y) as [->|H|H].
  - rewrite IH. split; [by intros ->|by intros [= ->]].
  - split; [done|]. intros [= -> ->]. lia.
  - split; [done|]. intros [= -> ->]. lia.
Qed.

Lemma lex_antisym a : forall b, lex b a = CompOpp (lex a b).
Proof.
  induction a as [|x a IH]; intros [|y b]; simpl; try done.
  rewrite (N.compare_antisym x y). destruct (N.compare x y); simpl; auto.
Qed.

Lemma lex_lt_trans a : forall b c, lex a b = Lt -> lex b c = Lt -> lex a c = Lt.
Proof.
  induction a as [|x a IH]; intros [|y b] [|z c]; simpl; try done.
  destruct (N.compare_spec x y) as [->|H|H]; [|intros _|done].
  - destruct (N.compare_spec y z); try done. eauto.
  - destruct (N.compare_spec y z) as [->|H'|H']; try done; intros _.
    + by rewrite (proj2 (N.compare_lt_iff x z)).
    + by rewrite (proj2 (N.compare_lt_iff x z)) by lia.
Qed.

Lemma wcmp_eq a b : wcmp a b = Eq <-> a = b.
Proof.
  unfold wcmp. destruct (N.compare_spec (wkind a) (wkind b)) as [E|H|H].
  - rewrite lex_eq. destruct a, b; simpl in *; try done; split; congruence.
  - split; [done|]. intros ->. lia.
  - split; [done|]. intros ->. lia.
Qed.

Lemma wcmp_refl a : wcmp a a = Eq.
Proof. by apply wcmp_eq. Qed.

Lemma wcmp_antisym a b : wcmp b a = CompOpp (wcmp a b).
Proof.
  unfold wcmp. rewrite (N.compare_antisym (wkind a) (wkind b)).
  destruct (N.compare (wkind a) (wkind b)); simpl; auto using lex_antisym.
Qed.

Lemma wcmp_lt_trans a b c : wcmp a b = Lt -> wcmp b c = Lt -> wcmp a c = Lt.
Proof.
  unfold wcmp.
  destruct (N.compare_spec (wkind a) (wkind b)) as [E|H|H]; [|intros _|done].
  - rewrite E. destruct (N.compare (wkind b) (wkind c)); try done. apply lex_lt_trans.
  - destruct (N.compare_spec (wkind b) (wkind c)) as [E|H'|H']; [| |done]; intros _.
    + rewrite <- E. by rewrite (proj2 (N.compare_lt_iff _ _)).
    + by rewrite (proj2 (N.compare_lt_iff _ _)) by lia.
Qed.

Definition wle (a b : pyword) : Prop := wcmp a b <> Gt.

Lemma wle_total a b : wle a b \/ wle b a.
Proof. unfold wle. rewrite (wcmp_antisym a b). destruct (wcmp a b); simpl; auto. Qed.

Lemma wle_antisym a b : wle a b -> wle b a -> a = b.
Proof.
  unfold wle. rewrite (wcmp_antisym a b). intros H1 H2. apply wcmp_eq.
  destruct (wcmp a b); simpl in *; done.
Qed.

Lemma wle_trans a b c : wle a b -> wle b c -> wle a c.
Proof.
  unfold wle. intros H1 H2.
  destruct (wcmp a b) eqn:E1; [| |done].
  - apply wcmp_eq in E1 as ->. done.
  - destruct (wcmp b c) eqn:E2; [| |done].
    + apply wcmp_eq in E2 as <-. by rewrite E1.
    + by rewrite (wcmp_lt_trans _ _ _ E1 E2).
Qed.

(** ** The sort *)
Section sort.
  Context {T : Type} (leb : T -> T -> bool).
  Notation R := (fun x y => leb x y = true).

  Lemma insert_sorted_Permutation x l : insert_sorted leb x l ≡ₚ x :: l.
  Proof.
    induction l as [|y l IH]; simpl; [done|].
    destruct (leb x y); [done|]. rewrite IH. constructor.
  Qed.

  Lemma isort_Permutation l : isort leb l ≡ₚ l.
  Proof.
    induction l as [|x l IH]; simpl; [done|].
    rewrite insert_sorted_Permutation. by constructor.
  Qed.

  Lemma isort_length l : length (isort leb l) = length l.
  Proof. by rewrite isort_Permutation. Qed.

  Context (Htot : forall x y, leb x y = true \/ leb y x = true).
  Context (Htr : forall x y z, leb x y = true -> leb y z = true -> leb x z = true).

  Lemma insert_sorted_sorted x l : StronglySorted R l -> StronglySorted R (insert_sorted leb x l).
  Proof.
    induction 1 as [|y l Hs IH Hy]; simpl; [repeat constructor|].
    destruct (leb x y) eqn:E.
    - constructor; [by constructor|]. constructor; [done|].
      eapply Forall_impl; [exact Hy|]. simpl. eauto.
    - constructor; [done|]. rewrite insert_sorted_Permutation. constructor; [|done].
      destruct (Htot x y) as [H|H]; [congruence|done].
  Qed.

  Lemma isort_sorted l : StronglySorted R (isort leb l).
  Proof. induction l as [|x l IH]; simpl; [constructor|]. by apply insert_sorted_sorted. Qed.

  Lemma sorted_unique (l1 l2 : list T) :
    (forall x y, x ∈ l1 -> y ∈ l1 -> leb x y = true -> leb y x = true -> x = y) ->
    StronglySorted R l1 -> StronglySorted R l2 -> l1 ≡ₚ l2 -> l1 = l2.
  Proof.
    intros Ha H1. revert l2. induction H1 as [|x1 l1 H1 IH Hx1]; intros l2 H2 E.
    { symmetry. by apply Permutation_nil. }
    destruct H2 as [|x2 l2 H2 Hx2].
    { by apply Permutation_nil_r in E. }
    assert (x1 = x2) as ->.
    { rewrite Forall_forall in Hx1, Hx2.
      assert (x2 ∈ x1 :: l1) as Hi2 by (rewrite E; left).
      assert (x1 ∈ x2 :: l2) as Hi1 by (rewrite <- E; left).
      apply elem_of_cons in Hi1 as [?|Hi1]; [done|].
      pose proof Hi2 as Hi2'. apply elem_of_cons in Hi2 as [?|Hi2]; [done|].
      apply Ha; [left|done|eauto|eauto]. }
    f_equal. apply IH; [|done|by apply (inj (x2 ::.)) in E].
    intros x y Hx Hy. apply Ha; by right.
  Qed.

  Lemma isort_unique (l1 l2 : list T) :
    (forall x y, x ∈ l1 -> y ∈ l1 -> leb x y = true -> leb y x = true -> x = y) ->
    l1 ≡ₚ l2 -> isort leb l1 = isort leb l2.
  Proof.
    intros Ha E. apply sorted_unique; [|apply isort_sorted..|by rewrite !isort_Permutation].
    intros x y. rewrite !isort_Permutation. apply Ha.
  Qed.

  (** Sorting is stable: elements that are equivalent keep their order. *)
  Lemma sorted_isort l : StronglySorted R l -> isort leb l = l.
  Proof.
    induction 1 as [|x l Hs IH Hx]; simpl; [done|]. rewrite IH.
    destruct l as [|y l]; simpl; [done|].
    apply Forall_cons in Hx as [-> _]. done.
  Qed.
End sort.

(** ** The order on clues *)
Section clues.
  Context {A : num} (HA : total_num A).
  Notation clue := (clue A).

  Definition cle (a b : clue) : Prop :=
    nlt A (c_dist a) (c_dist b) = true \/
    (c_dist a = c_dist b /\
     (nlt A (c_prob a) (c_prob b) = true \/
      (c_prob a = c_prob b /\ wle (c_word a) (c_word b)))).

  Lemma neq_true x y : neq A x y = true <-> x = y.
  Proof. apply (neq_spec A HA). Qed.
  Lemma neq_false x y : neq A x y = false <-> x <> y.
  Proof. rewrite <- not_true_iff_false. by rewrite neq_true. Qed.
  Lemma neq_refl x : neq A x x = true.
  Proof. by apply neq_true. Qed.
  Lemma neq_sym x y : neq A x y = neq A y x.
  Proof.
    destruct (neq A x y) eqn:E1, (neq A y x) eqn:E2; try done;
      rewrite ?neq_true, ?neq_false in *; congruence.
  Qed.

  Lemma clue_leb_spec (a b : clue) : clue_leb a b = true <-> cle a b.
  Proof.
    unfold clue_leb, cle.
    destruct (neq A (c_dist a) (c_dist b)) eqn:E1; rewrite ?neq_true, ?neq_false in E1.
    - rewrite E1, (nlt_irrefl A HA).
      destruct (neq A (c_prob a) (c_prob b)) eqn:E2; rewrite ?neq_true, ?neq_false in E2.
      + rewrite E2, (nlt_irrefl A HA). unfold wle.
        destruct (wcmp (c_word a) (c_word b)); split; intros H.
        all: try (right; split; [done|]; right; split; [done|]; discriminate).
        all: try done.
        exfalso. destruct H as [H|[_ [H|[_ H]]]]; done.
      + split; [auto|]. intros [H|[_ [H|[H _]]]]; done.
    - split; [auto|]. intros [H|[H _]]; done.
  Qed.

  Lemma nlt_asym x y : nlt A x y = true -> nlt A y x = true -> False.
  Proof.
    intros H1 H2. pose proof (nlt_trans A HA _ _ _ H1 H2) as H.
    by rewrite (nlt_irrefl A HA) in H.
  Qed.

  Lemma nlt_cases x y : nlt A x y = true \/ x = y \/ nlt A y x = true.
  Proof.
    destruct (nlt A x y) eqn:E1; [auto|]. destruct (nlt A y x) eqn:E2; [auto|].
    right; left. by apply (nlt_total A HA).
  Qed.

  Lemma cle_total a b : cle a b \/ cle b a.
  Proof.
    unfold cle. destruct (nlt_cases (c_dist a) (c_dist b)) as [H|[H|H]]; auto.
    destruct (nlt_cases (c_prob a) (c_prob b)) as [H2|[H2|H2]]; auto.
    destruct (wle_total (c_word a) (c_word b)); [left|right]; right; auto.
  Qed.

  Lemma cle_trans a b c : cle a b -> cle b c -> cle a c.
  Proof.
    unfold cle.
    intros [H1|[H1 H1']] [H2|[H2 H2']].
    - left. by eapply nlt_trans.
    - left. by rewrite <- H2.
    - left. by rewrite H1.
    - right. split; [congruence|].
      destruct H1' as [H3|[H3 H3']], H2' as [H4|[H4 H4']].
      + left. by eapply nlt_trans.
      + left. by rewrite <- H4.
      + left. by rewrite H3.
      + right. split; [congruence|]. by eapply wle_trans.
  Qed.

  Lemma cle_antisym a b : cle a b -> cle b a ->
    c_dist a = c_dist b /\ c_prob a = c_prob b /\ c_word a = c_word b.
  Proof.
    unfold cle.
    intros [H1|[H1 H1']] [H2|[H2 H2']].
    - by destruct (nlt_asym _ _ H1 H2).
    - rewrite H2, (nlt_irrefl A HA) in H1. done.
    - rewrite H1, (nlt_irrefl A HA) in H2. done.
    - split; [done|].
      destruct H1' as [H3|[H3 H3']], H2' as [H4|[H4 H4']].
      + by destruct (nlt_asym _ _ H3 H4).
      + rewrite H4, (nlt_irrefl A HA) in H3. done.
      + rewrite H3, (nlt_irrefl A HA) in H4. done.
      + split; [done|]. by apply wle_antisym.
  Qed.

  Lemma clue_leb_total (a b : clue) : clue_leb a b = true \/ clue_leb b a = true.
  Proof. rewrite !clue_leb_spec. apply cle_total. Qed.
  Lemma clue_leb_trans (a b c : clue) :
    clue_leb a b = true -> clue_leb b c = true -> clue_leb a c = true.
  Proof. rewrite !clue_leb_spec. apply cle_trans. Qed.

  Lemma cle_dist (a b : clue) : clue_leb a b = true -> nle A (c_dist a) (c_dist b) = true.
  Proof.
    rewrite clue_leb_spec. unfold cle, nle. rewrite negb_true_iff.
    intros [H|[H _]].
    - destruct (nlt A (c_dist b) (c_dist a)) eqn:E; [|done]. by destruct (nlt_asym _ _ H E).
    - rewrite H. apply (nlt_irrefl A HA).
  Qed.

  Lemma nle_trans x y z : nle A x y = true -> nle A y z = true -> nle A x z = true.
  Proof.
    unfold nle. rewrite !negb_true_iff. intros H1 H2.
    destruct (nlt A z x) eqn:E; [|done].
    destruct (nlt_cases x y) as [H|[H|H]]; [|subst; congruence|congruence].
    rewrite (nlt_trans A HA _ _ _ E H) in H2. done.
  Qed.

  Lemma nle_total x y : nle A x y = true \/ nle A y x = true.
  Proof.
    unfold nle. rewrite !negb_true_iff.
    destruct (nlt_cases x y) as [H|[->|H]].
    - left. destruct (nlt A y x) eqn:E; [|done]. by destruct (nlt_asym _ _ H E).
    - left. apply (nlt_irrefl A HA).
    - right. destruct (nlt A x y) eqn:E; [|done]. by destruct (nlt_asym _ _ H E).
  Qed.

  Lemma nle_refl x : nle A x x = true.
  Proof. unfold nle. by rewrite (nlt_irrefl A HA). Qed.

  (** ** Type clashes *)
  Lemma any_clash_spec (l : list clue) : NoDup (c_word <$> l) ->
    any_clash l = true <-> exists a b, a ∈ l /\ b ∈ l /\ kind_clash a b = true.
  Proof.
    assert (forall a : clue, kind_clash a a = false) as Hself.
    { intros a. unfold kind_clash. rewrite N.eqb_refl. by rewrite andb_false_r. }
    assert (forall a b : clue, kind_clash a b = kind_clash b a) as Hsym.
    { intros a b. unfold kind_clash.
      by rewrite (neq_sym (c_dist a)), (neq_sym (c_prob a)), (N.eqb_sym (wkind (c_word a))). }
    induction l as [|c l IH]; simpl.
    - split; [done|]. intros (a&b&Ha&_). by apply elem_of_nil in Ha.
    - intros [Hc Hnd]%NoDup_cons. rewrite orb_true_iff, (IH Hnd), existsb_exists. split.
      + intros [(b&Hb&Hk)|(a&b&Ha&Hb&Hk)].
        * apply elem_of_list_In in Hb. exists c, b. split_and!; [left|by right|done].
        * exists a, b. split_and!; [by right|by right|done].
      + intros (a&b&Ha&Hb&Hk).
        apply elem_of_cons in Ha as [->|Ha]; apply elem_of_cons in Hb as [->|Hb].
        * by rewrite Hself in Hk.
        * left. exists b. split; [by apply elem_of_list_In|done].
        * left. exists a. split; [by apply elem_of_list_In|by rewrite Hsym].
        * right. by exists a, b.
  Qed.
End clues.
