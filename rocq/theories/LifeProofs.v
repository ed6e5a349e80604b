(** * Lifetimes of trainers *)
From Coq Require Import Lia.
From Verif Require Import Py NumModel ClassifierModel TrainSpec TrainProofs StripModel RaiseModel RaiseProofs ObserveModel ObserveSpec ObserveProofs ShelveApiProofs LifeModel LifeSpec.

(** ** The table of connections *)
Definition view (e : event) (i : nat) (cs : list conn) : list (nat * watcher) :=
  (fun c => (cn_id c, cn_watcher c)) <$> List.filter (fun c => bool_decide (cn_event c = e) && (cn_corpus c =? i)) cs.

Lemma receivers_view e i cs : receivers e i cs = (view e i cs).*2.
Proof. unfold receivers, view. by rewrite <- list_fmap_compose. Qed.

Definition has (id : nat) (l : list (nat * watcher)) : bool := existsb (fun x => x.1 =? id) l.

Lemma has_app id l l' : has id (l ++ l') = has id l || has id l'.
Proof. apply existsb_app. Qed.

Lemma exists_view e i id cs : existsb (fun c => bool_decide (cn_event c = e) && (cn_corpus c =? i) && (cn_id c =? id)) cs = has id (view e i cs).
Proof.
  unfold has, view. induction cs as [|c cs IH]; [done|]. simpl. rewrite IH.
  destruct (bool_decide _ && _) eqn:E; simpl; [done|done].
Qed.

Lemma view_app e i cs cs' : view e i (cs ++ cs') = view e i cs ++ view e i cs'.
Proof. unfold view. by rewrite List.filter_app, fmap_app. Qed.

Lemma view_connect e i e' i' id w cs : view e i (connect e' i' id w cs) =
  view e i cs ++ (if bool_decide (e' = e) && (i' =? i) && negb (has id (view e i cs)) then [(id, w)] else []).
Proof.
  unfold connect. rewrite exists_view. destruct (bool_decide (e' = e) && (i' =? i)) eqn:E.
  - apply andb_true_iff in E as [->%bool_decide_eq_true ->%Nat.eqb_eq]. destruct (has id (view e i cs)).
    + by rewrite app_nil_r.
    + rewrite view_app. f_equal. unfold view. simpl. by rewrite bool_decide_true, Nat.eqb_refl.
  - simpl. rewrite app_nil_r. destruct (has id (view e' i' cs)); [done|]. rewrite view_app. unfold view at 2. simpl. rewrite E. by rewrite app_nil_r.
Qed.

Lemma view_all e i id w corpora : forall cs, view e i (connect_all id w corpora cs) =
  view e i cs ++ (if bool_decide (i ∈ corpora) && negb (has id (view e i cs)) then [(id, w)] else []).
Proof.
  unfold connect_all. induction corpora as [|a l IH]; intros cs; cbn [foldl].
  - rewrite bool_decide_eq_false_2 by apply not_elem_of_nil. by rewrite app_nil_r.
  - rewrite IH.
    assert (view e i (connect Removed a id w (connect Added a id w cs)) =
      view e i cs ++ (if (a =? i) && negb (has id (view e i cs)) then [(id, w)] else [])) as ->.
    { rewrite !view_connect. destruct e; simpl.
      - by rewrite !app_nil_r.
      - by rewrite !app_nil_r. }
    destruct (Nat.eqb_spec a i) as [->|Hne]; simpl.
    + rewrite (bool_decide_eq_true_2 (i ∈ i :: l)) by left. simpl. destruct (has id (view e i cs)) eqn:Hh; simpl.
      * rewrite app_nil_r, Hh. by rewrite andb_false_r, app_nil_r.
      * rewrite has_app. simpl. rewrite Nat.eqb_refl. simpl. rewrite orb_true_r. simpl. by rewrite andb_false_r, app_nil_r.
    + rewrite app_nil_r. f_equal. replace (bool_decide (i ∈ a :: l)) with (bool_decide (i ∈ l)); [done|].
      apply bool_decide_ext. rewrite elem_of_cons. naive_solver.
Qed.

Lemma view_drop e i id cs : view e i (List.filter (fun c => negb (cn_id c =? id)) cs) = List.filter (fun x => negb (x.1 =? id)) (view e i cs).
Proof.
  unfold view. induction cs as [|c cs IH]; [done|]. simpl. destruct (negb (cn_id c =? id)) eqn:E1; simpl.
  - destruct (bool_decide _ && _) eqn:E2; simpl; rewrite ?E2; simpl; [|done]. rewrite ?E1. simpl. by f_equal.
  - destruct (bool_decide _ && _) eqn:E2; simpl; rewrite ?E2; simpl; [|done]. by rewrite E1.
Qed.

(** ** Listening trainers with their identities *)
Fixpoint listening_ids (past : list lop) (i : nat) : list (nat * watcher) :=
  match past with
  | [] => []
  | LNew id w corpora :: rest =>
      (if bool_decide (i ∈ corpora) && negb (given_up id rest) then [(id, w)] else []) ++ listening_ids rest i
  | _ :: rest => listening_ids rest i
  end.

Lemma listening_view past i : listening past i = (listening_ids past i).*2.
Proof. induction past as [|x past IH]; [done|]. destruct x; simpl; [|done..]. rewrite fmap_app, <- IH. by destruct (_ && _). Qed.

Lemma given_up_app id l l' : given_up id (l ++ l') = given_up id l || given_up id l'.
Proof. apply existsb_app. Qed.

Lemma listening_drop past i id : listening_ids (past ++ [LDrop id]) i = List.filter (fun x => negb (x.1 =? id)) (listening_ids past i).
Proof.
  induction past as [|x past IH]; [done|]. destruct x as [k w corpora|k|y]; simpl; [|done..].
  rewrite List.filter_app, <- IH. f_equal. rewrite given_up_app. simpl. rewrite orb_false_r.
  destruct (bool_decide (i ∈ corpora)), (given_up k past); simpl; try done.
  rewrite (Nat.eqb_sym id k). by destruct (k =? id).
Qed.

Lemma listening_new past i id w corpora : listening_ids (past ++ [LNew id w corpora]) i =
  listening_ids past i ++ (if bool_decide (i ∈ corpora) then [(id, w)] else []).
Proof.
  induction past as [|x past IH]; [simpl; by rewrite app_nil_r, andb_true_r|]. destruct x as [k w' c'|k|y]; simpl; [|done..].
  rewrite IH, app_assoc. f_equal. f_equal. rewrite given_up_app. simpl. by rewrite orb_false_r.
Qed.

Lemma listening_call past i x : listening_ids (past ++ [LCall x]) i = listening_ids past i.
Proof.
  induction past as [|y past IH]; [done|]. destruct y as [k w' c'|k|y]; simpl; [|done..].
  rewrite IH. f_equal. rewrite given_up_app. simpl. by rewrite orb_false_r.
Qed.

Definition fresh (id : nat) (past : list lop) : Prop :=
  forall i w corpora, past !! i = Some (LNew id w corpora) -> exists k, i < k /\ past !! k = Some (LDrop id).

Lemma given_up_true id xs k : xs !! k = Some (LDrop id) -> given_up id xs = true.
Proof.
  intros H. apply existsb_exists. exists (LDrop id). split; [|apply Nat.eqb_refl].
  apply elem_of_list_In, elem_of_list_lookup. by exists k.
Qed.

Lemma fresh_not_listening past id i : fresh id past -> has id (listening_ids past i) = false.
Proof.
  induction past as [|x past IH]; [done|]. intros Hf.
  assert (fresh id past) as Hf'.
  { intros j w corpora E. destruct (Hf (S j) w corpora E) as (k&Hk&E2). destruct k as [|k]; [lia|]. exists k. split; [lia|done]. }
  destruct x as [k w corpora|k|y]; simpl; [|by apply IH..].
  rewrite has_app, IH by done. rewrite orb_false_r. destruct (_ && _) eqn:E; [|done]. simpl. rewrite orb_false_r.
  apply Nat.eqb_neq. intros ->. apply andb_true_iff in E as [_ E].
  destruct (Hf 0 w corpora eq_refl) as (k&Hk&E2). destruct k as [|k]; [lia|]. simpl in E2.
  by rewrite (given_up_true _ _ _ E2) in E.
Qed.

Lemma new_fresh past id w corpora rest : new_trainers (past ++ LNew id w corpora :: rest) -> fresh id past.
Proof.
  intros H i w' c' E. pose proof (lookup_lt_Some _ _ _ E) as Hlt.
  destruct (H i (length past) id w' c' w corpora Hlt) as (k&Hk&Ek).
  - by rewrite lookup_app_l.
  - by rewrite list_lookup_middle.
  - exists k. split; [lia|]. by rewrite lookup_app_l in Ek by lia.
Qed.

(** ** What the classifiers learn *)
Section life.
  Context {A : num} (it : set_order) (Hit : set_order_ok it) (p : program) (ord : list watcher -> list watcher) (Hord : forall l, ord l ≡ₚ l).
  Notation mstore := (gmap pyword winfo).
  Notation state := (state A mstore).

  Notation all_trainable := (all_trainable p).

  Lemma done_all cs (x : ocall) : trainable p (call_msg x) ->
    trainings_done (connected p ord cs) [x] = (fun t => (t, call_msg x)) <$> asked (connected p ord cs) x /\
    failures (connected p ord cs) [x] = [].
  Proof.
    intros [Hk Ht]. unfold trainings_done, failures, requests. cbn [flat_map]. rewrite app_nil_r. split.
    - assert (forall l : list (watcher * nat), (forall q, q ∈ l -> q.2 = call_msg x) ->
        List.filter (fun q => p_key (connected p ord cs) q.2 && bool_decide ((p_tok (connected p ord cs) q.2).2 = None)) l = l) as Hf.
      { induction l as [|q l IH]; intros Hq; [done|]. cbn [List.filter]. rewrite (Hq q) by left. cbn [connected p_key p_tok]. rewrite Hk, Ht. simpl.
        f_equal. apply IH. intros q' Hq'. apply Hq. by right. }
      apply Hf. intros q (t&->&_)%elem_of_list_fmap. done.
    - simpl. rewrite Hk, Ht. done.
  Qed.

  Lemma life_steps xs : forall past cs (s0 : state) ds s, all_trainable xs -> new_trainers (past ++ xs) ->
    (forall e i, view e i cs = listening_ids past i) -> agree it p s0 ds [] s ->
    exists ds', ds' ≡ₚ reached past xs /\ agree it p s0 (ds ++ ds') [] (run_lops mem_backend it p ord xs cs s).2.
  Proof.
    induction xs as [|x xs IH]; intros past cs s0 ds s Ht Hn Hv Ha.
    { exists []. split; [done|]. by rewrite app_nil_r. }
    assert (all_trainable xs) as Ht' by (intros y Hy; apply Ht; by right).
    assert (new_trainers ((past ++ [x]) ++ xs)) as Hn' by by rewrite <- app_assoc.
    cbn [run_lops reached]. destruct x as [id w corpora|id|x]; cbn [run_lop].
    - apply (IH (past ++ [LNew id w corpora])); [done..| |done]. intros e i. rewrite view_all, listening_new, Hv.
      rewrite (fresh_not_listening past id i) by by eapply new_fresh. by rewrite andb_true_r.
    - apply (IH (past ++ [LDrop id])); [done..| |done]. intros e i. by rewrite view_drop, listening_drop, Hv.
    - assert (trainable p (call_msg x)) as Hx by (apply Ht; left).
      destruct (done_all cs x Hx) as [D1 D2].
      destruct (agree_call it Hit (connected p ord cs) x s0 ds [] s Ha) as (H1&_&_). rewrite D1, D2 in H1.
      destruct (IH (past ++ [LCall x]) cs s0 (ds ++ ((fun t => (t, call_msg x)) <$> asked (connected p ord cs) x))
        (run_ocall mem_backend it (connected p ord cs) x s).1) as (ds'&HP&HA); [done..| |exact H1|].
      { intros e i. by rewrite listening_call, Hv. }
      eexists. rewrite <- app_assoc in HA. split; [|exact HA]. apply Permutation_app; [|done].
      destruct x as [i r id [|]|i r [|]|t r]; cbn [asked connected p_receivers call_msg]; try done.
      + apply fmap_Permutation. by rewrite Hord, receivers_view, listening_view, Hv.
      + apply fmap_Permutation. by rewrite Hord, receivers_view, listening_view, Hv.
  Qed.

  (** ** Counting *)
  Lemma lessons_for_app j b ds t r : lessons_for j b (ds ++ [(t, r)]) =
    (lessons_for j b ds + if ((t_class t =? j)%nat && eqb (t_spam t) b) then 1 else 0)%Z.
  Proof. unfold lessons_for. rewrite List.filter_app, app_length. simpl. destruct (_ && _); simpl; lia. Qed.
  Lemma lessons_with_app j b w ds t r : lessons_with p j b w (ds ++ [(t, r)]) =
    (lessons_with p j b w ds + if ((t_class t =? j)%nat && eqb (t_spam t) b && bool_decide (w ∈ (p_tok p r).1)) then 1 else 0)%Z.
  Proof. unfold lessons_with. rewrite List.filter_app, app_length. simpl. destruct (_ && _); simpl; lia. Qed.

  Lemma lessons_counts j ds : forall (o : obj A mstore) , o_bigrams o = Some false ->
    let o' := (run mem_backend it (lessons_of p j ds) o).1 in
    o_bigrams o' = Some false /\ (forall b, total_of b o' = total_of b o + lessons_for j b ds)%Z /\
    (forall b w, count b (o_store o' !! w) = count b (o_store o !! w) + lessons_with p j b w ds)%Z.
  Proof.
    induction ds as [|[t r] ds IH] using rev_ind; intros o Hbg; cbv zeta.
    { unfold lessons_for, lessons_with. simpl. split; [done|]. split; intros; lia. }
    rewrite lessons_of_app. destruct (IH o Hbg) as (K1&K2&K3). revert K1 K2 K3. cbv zeta. rewrite run_app.
    set (o1 := (run mem_backend it (lessons_of p j ds) o).1). intros K1 K2 K3.
    pose proof (fun b => lessons_for_app j b ds t r) as F1. pose proof (fun b w => lessons_with_app j b w ds t r) as F2.
    destruct (t_class t =? j) eqn:Ej.
    - destruct (learn_mem it Hit (SIter (p_tok p r).1) (t_spam t) false o1 K1) as (m'&El&Hm).
      assert ((run mem_backend it [CLearn (SIter (p_tok p r).1) (t_spam t)] o1).1 = (learn mem_backend it (SIter (p_tok p r).1) (t_spam t) o1).1) as Er.
      { cbn [run run_call]. by destruct (learn _ _ _ _ _) as [o2 y]. }
      destruct (run mem_backend it (lessons_of p j ds) o) as [o1' ys1] eqn:E1. cbn [fst] in *. subst o1.
      destruct (run mem_backend it [_] o1') as [o2 ys2] eqn:E2. cbn [fst] in *. subst o2. rewrite El. cbn [fst].
      split; [done|]. split.
      + intros b. rewrite F1. specialize (K2 b). cbn [total_of] in *. unfold total_of in *. cbn [o_nspam o_nham]. 
        destruct b, (t_spam t); cbn [eqb andb]; lia.
      + intros b w. rewrite F2. specialize (K3 b w). cbn [o_store]. rewrite Hm.
        assert (bool_decide (w ∈ toks false (SIter (p_tok p r).1)) = bool_decide (w ∈ (p_tok p r).1)) as -> by (apply bool_decide_ext; done).
        destruct (bool_decide (w ∈ (p_tok p r).1)); [|rewrite andb_false_r; lia]. rewrite andb_true_r, andb_true_l.
        destruct (o_store o1' !! w) as [[sc hc]|]; destruct b, (t_spam t); simpl in *; lia.
    - destruct (run mem_backend it (lessons_of p j ds) o) as [o1' ys1] eqn:E1. cbn [fst run] in *. subst o1.
      split; [done|]. split; intros; rewrite ?F1, ?F2, ?K2, ?K3; simpl; lia.
  Qed.

  Lemma life_counts xs (s : state) : all_trainable xs -> new_trainers xs -> (forall j, o_bigrams (s_class s j) = Some false) ->
    forall j b, let o := s_class s j in let o' := s_class (run_lops mem_backend it p ord xs [] s).2 j in
    (total_of b o' = total_of b o + lessons_for j b (reached [] xs))%Z /\
    (forall w, count b (o_store o' !! w) = count b (o_store o !! w) + lessons_with p j b w (reached [] xs))%Z.
  Proof.
    intros Ht Hn Hbg j b. cbv zeta.
    destruct (life_steps xs [] [] s [] s Ht Hn) as (ds&HP&Ha&_); [done| |].
    { apply agree_refl. intros i. by rewrite Hbg. }
    cbn [app] in Ha. destruct (Ha j) as (_&_&Hst&Hns&Hnh). cbn zeta in *.
    destruct (lessons_counts j ds (s_class s j) (Hbg j)) as (_&K2&K3). cbv zeta in K2, K3.
    assert (forall f : watcher * nat -> bool, length (List.filter f ds) = length (List.filter f (reached [] xs))) as HL.
    { intros f. clear -HP. induction HP as [|x l l' HP IH|x y l|l l' l'' H1 IH1 H2 IH2]; [done|..]; simpl.
      - destruct (f x); simpl; by rewrite IH.
      - by destruct (f x), (f y).
      - by rewrite IH1. }
    split.
    - transitivity (total_of b (run mem_backend it (lessons_of p j ds) (s_class s j)).1).
      + unfold total_of. unfold failed_of in *. simpl in Hns, Hnh. destruct b; lia.
      + rewrite K2. unfold lessons_for. by rewrite HL.
    - intros w. rewrite Hst, K3. unfold lessons_with. by rewrite HL.
  Qed.

  Lemma life_nothing xs (s : state) : all_trainable xs -> new_trainers xs -> (forall j, o_bigrams (s_class s j) <> None) ->
    reached [] xs = [] -> forall j, same_training (s_class (run_lops mem_backend it p ord xs [] s).2 j) (s_class s j).
  Proof.
    intros Ht Hn Hbg Hnil j. destruct (life_steps xs [] [] s [] s Ht Hn) as (ds&HP&Ha&_); [done|by apply agree_refl|].
    rewrite Hnil in HP. apply Permutation_nil_r in HP as ->. destruct (Ha j) as (_&Hb&Hst&Hns&Hnh). cbn zeta in *.
    unfold failed_of in *. cbn in *. unfold same_training. split_and!; [lia|lia|done|done].
  Qed.
End life.

(** ** Trainers nobody keeps, messages that came before *)
Definition shop : program := Program (fun r => Some [N.of_nat r]) (fun _ => true) (fun _ => ([WStr [97%N]], None)) (fun _ _ => []).
Definition start {A : num} : state A (gmap pyword winfo) := State (fun _ => ∅) (fun _ => c_new false ∅) (fun _ => None).

Lemma unkept_refuted (A : num) : ~ forall it p ord pre mid id w corpora i r (s : state A (gmap pyword winfo)),
  set_order_ok it -> (forall l, ord l ≡ₚ l) ->
  let xs := pre ++ [LNew id w corpora] ++ mid ++ [LCall (OAdd i r None true)] in
  all_trainable p xs -> new_trainers xs -> i ∈ corpora -> (forall j, o_bigrams (s_class s j) = Some false) ->
  (total_of (t_spam w) (s_class s (t_class w)) < total_of (t_spam w) (s_class (run_lops mem_backend it p ord xs [] s).2 (t_class w)))%Z.
Proof.
  intros H. specialize (H (fun l => remove_dups l) shop (fun l => l) [] [LDrop 0] 0 (Watcher 0 true) [0] 0 7 start dups_ok (fun l => Permutation_refl l)).
  cbv zeta in H. assert (0 < 0)%Z; [|lia]. apply H; clear H.
  - intros x _. done.
  - intros [|[|[|i]]] [|[|[|j]]] id w1 c1 w2 c2 Hlt; try lia; cbn; try done; intros [= <-]; done.
  - left.
  - done.
Qed.

Lemma earlier_refuted (A : num) : ~ forall it p ord pre id w corpora i r (s : state A (gmap pyword winfo)),
  set_order_ok it -> (forall l, ord l ≡ₚ l) ->
  let xs := pre ++ [LCall (OAdd i r None true); LNew id w corpora] in
  all_trainable p xs -> new_trainers xs -> i ∈ corpora -> (forall j, o_bigrams (s_class s j) = Some false) ->
  (total_of (t_spam w) (s_class s (t_class w)) < total_of (t_spam w) (s_class (run_lops mem_backend it p ord xs [] s).2 (t_class w)))%Z.
Proof.
  intros H. specialize (H (fun l => remove_dups l) shop (fun l => l) [] 0 (Watcher 0 true) [0] 0 7 start dups_ok (fun l => Permutation_refl l)).
  cbv zeta in H. assert (0 < 0)%Z; [|lia]. apply H; clear H.
  - intros x _. done.
  - intros [|[|i]] [|[|j]] id w1 c1 w2 c2 Hlt; try lia; cbn; done.
  - left.
  - done.
Qed.

(** A kept spam trainer of corpora 0 and 1, listed twice, and a ham trainer that
    is given up after the first message *)
Definition script : list lop :=
  [LCall (OAdd 0 1 None true); LNew 0 (Watcher 0 true) [0; 1; 0]; LNew 1 (Watcher 0 false) [1];
   LCall (OAdd 0 2 None true); LCall (OAdd 1 3 None true); LDrop 1; LCall (OAdd 1 4 None true); LNew 1 (Watcher 1 true) [1];
   LCall (ORemove 1 4 true)].
Lemma script_case : reached [] script =
    [(Watcher 0 true, 2); (Watcher 0 true, 3); (Watcher 0 false, 3); (Watcher 0 true, 4); (Watcher 0 true, 4); (Watcher 1 true, 4)] /\
  all_trainable shop script /\ new_trainers script.
Proof.
  split; [reflexivity|]. split; [by intros x _|]. unfold script.
  intros i j id w1 c1 w2 c2 Hlt Hi Hj.
  assert (i < 9) as H9 by (apply lookup_lt_Some in Hi; simpl in Hi; lia).
  assert (j < 9) as H9' by (apply lookup_lt_Some in Hj; simpl in Hj; lia).
  destruct i as [|[|[|[|[|[|[|[|[|i]]]]]]]]]; try lia; try discriminate Hi; injection Hi as <- <- <-;
    destruct j as [|[|[|[|[|[|[|[|[|j]]]]]]]]]; try lia; try discriminate Hj.
  exists 5. split; [lia|done].
Qed.
