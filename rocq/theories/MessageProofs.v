(** * Proofs about messages, headers and texts *)
From Coq Require Import String.
From Verif Require Import Py NumModel MessageModel MessageSpec.

(** ** Header lists *)

Lemma same_name_true a b : same_name a b = true <-> lower a = lower b.
Proof. unfold same_name. by rewrite bool_decide_eq_true. Qed.

Lemma same_name_false a b : same_name a b = false <-> lower a <> lower b.
Proof. unfold same_name. by rewrite bool_decide_eq_false. Qed.

Lemma absent_or_first h name : absent h name \/ exists v, first_is h name v.
Proof.
  induction h as [|[k v] h IH]; [left; constructor|].
  destruct (decide (lower k = name)) as [E|E].
  - right. exists v, [], k, h. by split_and!.
  - destruct IH as [IH|[w (l1 & k' & l2 & -> & Hk & Hl)]].
    + left. by constructor.
    + right. exists w, ((k, v) :: l1), k', l2. split_and!; [done|done|by constructor].
Qed.

Lemma absent_not_first h name v : absent h name -> first_is h name v -> False.
Proof.
  intros Ha (l1 & k & l2 & -> & Hk & _).
  apply Forall_app in Ha as [_ Ha]. apply Forall_cons in Ha as [Ha _]. done.
Qed.

Lemma hget_absent h n : absent h (lower n) -> hget h n = FNone.
Proof.
  induction h as [|[k v] h IH]; intros Ha; [done|].
  apply Forall_cons in Ha as [Hk Ha]. simpl.
  destruct (same_name k n) eqn:E; [|auto].
  apply same_name_true in E. done.
Qed.

Lemma hreplace_absent h n v : absent h (lower n) -> hreplace h n v = None.
Proof.
  induction h as [|[k w] h IH]; intros Ha; [done|].
  apply Forall_cons in Ha as [Hk Ha]. simpl.
  destruct (same_name k n) eqn:E; [|by rewrite IH].
  apply same_name_true in E. done.
Qed.

Lemma hget_split l1 k v l2 n :
  Forall (fun kv => lower kv.1 <> lower n) l1 -> lower k = lower n ->
  hget (l1 ++ (k, v) :: l2) n = fetch v.
Proof.
  induction l1 as [|[k' w] l1 IH]; intros Hl Hk; simpl.
  - apply same_name_true in Hk. by rewrite Hk.
  - apply Forall_cons in Hl as [H1 Hl]. simpl in H1.
    apply same_name_false in H1. rewrite H1. auto.
Qed.

Lemma hget_first h n v : first_is h (lower n) v -> hget h n = fetch v.
Proof. intros (l1 & k & l2 & -> & Hk & Hl). by apply hget_split. Qed.

Lemma hreplace_split l1 k w l2 n v :
  Forall (fun kv => lower kv.1 <> lower n) l1 -> lower k = lower n ->
  hreplace (l1 ++ (k, w) :: l2) n v = Some (l1 ++ (k, v) :: l2).
Proof.
  induction l1 as [|[k' x] l1 IH]; intros Hl Hk; simpl.
  - apply same_name_true in Hk. by rewrite Hk.
  - apply Forall_cons in Hl as [H1 Hl]. simpl in H1.
    apply same_name_false in H1. rewrite H1. by rewrite IH.
Qed.

Lemma first_is_fun h name v w : first_is h name v -> first_is h name w -> v = w.
Proof.
  intros (l1 & k & l2 & -> & Hk & Hl) (l1' & k' & l2' & E & Hk' & Hl').
  revert l1' E Hl'. induction l1 as [|[a b] l1 IH]; intros [|[a' b'] l1'] E Hl'; simpl in E.
  - by inversion E.
  - inversion E; subst. apply Forall_cons in Hl' as [? _]. done.
  - inversion E; subst. apply Forall_cons in Hl as [? _]. done.
  - inversion E; subst. apply Forall_cons in Hl as [? ?]. apply Forall_cons in Hl' as [? ?]. eauto.
Qed.

Lemma first_is_app h h' name v : first_is h name v -> first_is (h ++ h') name v.
Proof.
  intros (l1 & k & l2 & -> & Hk & Hl). exists l1, k, (l2 ++ h').
  split_and!; [by rewrite <- app_assoc|done|done].
Qed.

Lemma first_is_app_r h h' name v : absent h name -> first_is h' name v -> first_is (h ++ h') name v.
Proof.
  intros Ha (l1 & k & l2 & -> & Hk & Hl). exists (h ++ l1), k, l2.
  split_and!; [by rewrite app_assoc|done|by apply Forall_app].
Qed.

(** ** Deleting the filter's headers *)

Lemma lower_sb k : is_filter_header k <-> Exists (fun n => same_name k n = true) sb_names.
Proof.
  unfold is_filter_header.
  assert (E : forall n, same_name k n = true <-> lower k = lower n) by (intros; apply same_name_true).
  rewrite Exists_exists. setoid_rewrite E.
  split.
  - assert (Hall : Forall (fun f => Exists (fun n => f = lower n) sb_names) filter_headers)
      by (apply (bool_decide_unpack _); by vm_compute).
    rewrite Forall_forall in Hall. intros H. apply Hall in H. by apply Exists_exists in H.
  - intros (n & Hn & ->). unfold sb_names in Hn.
    repeat (apply elem_of_cons in Hn as [->|Hn]; [apply (bool_decide_unpack _); by vm_compute|]).
    by apply elem_of_nil in Hn.
Qed.

Lemma foldl_hdel (ns : list codes) h :
  foldl hdel h ns = filter (fun kv => ~ Exists (fun n => same_name kv.1 n = true) ns) h.
Proof.
  revert h. induction ns as [|n ns IH]; intros h; simpl.
  - symmetry. induction h as [|kv h IHh]; [done|].
    rewrite filter_cons_True; [by rewrite IHh|]. intros H. inversion H.
  - rewrite IH. unfold hdel. rewrite list_filter_filter. apply list_filter_iff.
    intros kv. rewrite Exists_cons. destruct (same_name kv.1 n); naive_solver.
Qed.

Lemma delete_filter_headers h : foldl hdel h sb_names = others h.
Proof.
  rewrite foldl_hdel. apply list_filter_iff. intros kv. by rewrite lower_sb.
Qed.

(** ** Ids *)

Lemma set_id_cases x m :
  (exists s, x = AStr s /\ acceptable s /\ (g_id m = None \/ g_id m = Some [] \/ g_id m = Some s)
     /\ set_id x m = (Mail (Some s) (g_c m) (g_t m) (g_h m), Ok tt))
  \/ (exists e, set_id x m = (m, Err e) /\ (e = ValueError \/ e = TypeError)
        /\ ~ exists s, x = AStr s /\ acceptable s /\ (g_id m = None \/ g_id m = Some [] \/ g_id m = Some s)).
Proof.
  assert (Hres : forall s, s ∈ reserved_ids <-> ~ acceptable s).
  { intros s. unfold reserved_ids, acceptable.
    rewrite !elem_of_cons, elem_of_nil.
    destruct (decide (s = str "Statistics start date")), (decide (s = str "Persistent statistics")); tauto. }
  unfold set_id.
  destruct (g_id m) as [[|c i]|] eqn:Ei.
  - destruct x as [s| |f].
    + case_bool_decide as Hr.
      * right. exists ValueError. split_and!; [done|by left|].
        intros (s' & [= <-] & Ha & _). by apply Hres in Hr.
      * left. exists s. split_and!; [done| |by right; left|done].
        destruct (decide (s = str "Statistics start date")), (decide (s = str "Persistent statistics"));
          try (by split); exfalso; apply Hr, Hres; intros []; done.
    + right. exists ValueError. split_and!; [done|by left|]. by intros (s & ? & _).
    + right. exists TypeError. split_and!; [done|by right|]. by intros (s & ? & _).
  - destruct x as [s| |f]; cbn [id_differs].
    + case_bool_decide as Es; simpl.
      * subst s. case_bool_decide as Hr.
        -- right. exists ValueError. split_and!; [done|by left|].
           intros (s' & [= <-] & Ha & _). by apply Hres in Hr.
        -- left. exists (c :: i). split_and!; [done| |by right; right|done].
           destruct (decide (c :: i = str "Statistics start date")),
             (decide (c :: i = str "Persistent statistics"));
             try (by split); exfalso; apply Hr, Hres; intros []; done.
      * right. exists ValueError. split_and!; [done|by left|].
        intros (s' & [= <-] & _ & [?|[?|?]]); [done|done|]. congruence.
    + right. exists ValueError. split_and!; [done|by left|]. by intros (s & ? & _).
    + destruct (f (c :: i)); simpl.
      * right. exists TypeError. split_and!; [done|by right|]. by intros (s & ? & _).
      * right. exists ValueError. split_and!; [done|by left|]. by intros (s & ? & _).
  - destruct x as [s| |f].
    + case_bool_decide as Hr.
      * right. exists ValueError. split_and!; [done|by left|].
        intros (s' & [= <-] & Ha & _). by apply Hres in Hr.
      * left. exists s. split_and!; [done| |by left|done].
        destruct (decide (s = str "Statistics start date")), (decide (s = str "Persistent statistics"));
          try (by split); exfalso; apply Hr, Hres; intros []; done.
    + right. exists ValueError. split_and!; [done|by left|]. by intros (s & ? & _).
    + right. exists TypeError. split_and!; [done|by right|]. by intros (s & ? & _).
Qed.

Lemma set_id_accepts x m r :
  set_id x m = r ->
  (snd r = Ok tt <-> exists s, x = AStr s /\ acceptable s
                        /\ (g_id m = None \/ g_id m = Some [] \/ g_id m = Some s)) /\
  (forall s, x = AStr s -> snd r = Ok tt -> fst r = Mail (Some s) (g_c m) (g_t m) (g_h m)) /\
  (forall e, snd r = Err e -> fst r = m /\ (e = ValueError \/ e = TypeError)).
Proof.
  intros <-. destruct (set_id_cases x m) as [(s & -> & Ha & Hi & E)|(e & E & He & Hn)]; rewrite E; simpl.
  - split_and!.
    + split; [intros _; by exists s|done].
    + by intros s' [= <-] _.
    + done.
  - split_and!.
    + split; [done|]. intros H. by destruct Hn.
    + done.
    + by intros e' [= <-].
Qed.

Lemma set_id_from_payload_state hstr m :
  fst (set_id_from_payload hstr m) = fst (set_id (id_of_fetched hstr (hget (g_h m) n_mailid)) m).
Proof.
  unfold set_id_from_payload. by destruct (set_id _ m) as [m' [[]|[]]].
Qed.

Lemma set_id_keeps x m s : s <> [] -> g_id m = Some s -> g_id (fst (set_id x m)) = Some s.
Proof.
  intros Hs Hi. destruct (set_id_cases x m) as [(s' & -> & Ha & Hi' & E)|(e & E & _)]; rewrite E; simpl;
    [|done]. naive_solver.
Qed.

Lemma id_step_keeps hstr m c s : s <> [] -> g_id m = Some s -> g_id (id_step hstr m c) = Some s.
Proof.
  intros Hs Hi. destruct c; simpl; [by apply set_id_keeps| |done].
  rewrite set_id_from_payload_state. by apply set_id_keeps.
Qed.

Lemma id_steps_keep hstr cs m s : s <> [] -> g_id m = Some s -> g_id (id_steps hstr m cs) = Some s.
Proof.
  revert m. induction cs as [|c cs IH]; intros m Hs Hi; [done|].
  apply IH; [done|]. by apply id_step_keeps.
Qed.

Lemma id_step_acceptable hstr m c :
  (forall s, g_id m = Some s -> acceptable s) -> forall s, g_id (id_step hstr m c) = Some s -> acceptable s.
Proof.
  intros Hm s. destruct c as [x| |h]; simpl; [| |auto].
  - destruct (set_id_cases x m) as [(s' & -> & Ha & Hi' & E)|(e & E & _)]; rewrite E; simpl; naive_solver.
  - rewrite set_id_from_payload_state.
    destruct (set_id_cases (id_of_fetched hstr (hget (g_h m) n_mailid)) m)
      as [(s' & _ & Ha & Hi' & E)|(e & E & _)]; rewrite E; simpl; naive_solver.
Qed.

Lemma id_steps_acceptable hstr cs m :
  (forall s, g_id m = Some s -> acceptable s) -> forall s, g_id (id_steps hstr m cs) = Some s -> acceptable s.
Proof.
  revert m. induction cs as [|c cs IH]; intros m Hm; [done|].
  apply (IH (id_step hstr m c)). by apply id_step_acceptable.
Qed.

Lemma new_mail_acceptable x m : new_mail x = Ok m -> forall s, g_id m = Some s -> acceptable s.
Proof.
  unfold new_mail. intros H s Hs.
  destruct x as [s'| |f]; [| |done].
  - destruct (set_id (AStr s') _) as [m' [[]|e]] eqn:E; [|done]. injection H as ->.
    destruct (set_id_cases (AStr s') (Mail None None None [])) as [(s2 & _ & Ha & _ & E2)|(e & E2 & _)];
      rewrite E2 in E; inversion E; subst; simpl in Hs; naive_solver.
  - by inversion H; subst.
Qed.

Lemma payload_id hstr m r :
  set_id_from_payload hstr m = r ->
  (forall s, snd r = Ok (Some s) ->
     g_id (fst r) = Some s /\ acceptable s /\ first_is (g_h m) (str "x-spambayes-mailid") (HText s))
  /\ (snd r = Ok None -> fst r = m) /\ (forall e, snd r = Err e -> fst r = m /\ e = TypeError).
Proof.
  intros <-. unfold set_id_from_payload.
  destruct (set_id_cases (id_of_fetched hstr (hget (g_h m) n_mailid)) m)
    as [(s & Ex & Ha & Hi & E)|(e & E & He & Hn)]; rewrite E; simpl.
  - split_and!; [|done|done]. intros s' [= <-]. split_and!; [done|done|].
    destruct (absent_or_first (g_h m) (lower n_mailid)) as [Hab|[v Hv]].
    + rewrite hget_absent in Ex by done. done.
    + rewrite (hget_first _ _ _ Hv) in Ex. destruct v as [t|]; simpl in Ex; [|done].
      destruct (has_surrogates t); simpl in Ex; [done|]. injection Ex as ->. exact Hv.
  - destruct He as [-> | ->]; simpl; split_and!; try done; by intros ? [= <-].
Qed.

(** ** Classification *)
Section classify.
  Context (A : num) (HA : total_num A).
  Context (Hcut : nlt A (ham_cutoff A) (spam_cutoff A) = true).

  Lemma nlt_asym x y : nlt A x y = true -> nlt A y x = false.
  Proof.
    intros H. destruct (nlt A y x) eqn:E; [|done].
    pose proof (nlt_trans A HA x y x H E) as H'. by rewrite nlt_irrefl in H'.
  Qed.

  Lemma classify_ham p : classify A p = ham <-> nlt A p (ham_cutoff A) = true.
  Proof.
    unfold classify. destruct (nlt A p _); [done|]. by destruct (nlt A _ p).
  Qed.

  Lemma classify_spam p : classify A p = spam <-> nlt A (spam_cutoff A) p = true.
  Proof.
    unfold classify. destruct (nlt A p (ham_cutoff A)) eqn:E.
    - split; [done|]. intros H.
      pose proof (nlt_trans A HA _ _ _ H E) as H'. apply nlt_asym in H'. congruence.
    - by destruct (nlt A _ p).
  Qed.

  Lemma classify_unsure p :
    classify A p = unsure <-> nlt A p (ham_cutoff A) = false /\ nlt A (spam_cutoff A) p = false.
  Proof.
    pose proof (classify_ham p) as H1. pose proof (classify_spam p) as H2.
    destruct (nlt A p (ham_cutoff A)), (nlt A (spam_cutoff A) p), (classify A p); naive_solver.
  Qed.

  Lemma classify_mono p q : nlt A q p = false -> rank (classify A p) <= rank (classify A q).
  Proof.
    intros Hpq.
    destruct (classify A p) eqn:Ep, (classify A q) eqn:Eq; simpl; try lia.
    - apply classify_spam in Ep. apply classify_ham in Eq.
      pose proof (nlt_trans A HA _ _ _ Eq Hcut) as H1.
      pose proof (nlt_trans A HA _ _ _ H1 Ep) as H2. congruence.
    - apply classify_spam in Ep. apply classify_unsure in Eq as [_ Eq].
      destruct (nlt A q (spam_cutoff A)) eqn:E.
      + pose proof (nlt_trans A HA _ _ _ E Ep). congruence.
      + pose proof (nlt_total A HA _ _ E Eq) as ->. congruence.
    - apply classify_ham in Eq. apply classify_unsure in Ep as [Ep _].
      destruct (nlt A (ham_cutoff A) p) eqn:E.
      + pose proof (nlt_trans A HA _ _ _ Eq E). congruence.
      + pose proof (nlt_total A HA _ _ E Ep) as <-. congruence.
  Qed.

  Lemma unsure_agree p :
    (is_unsure A p = true <-> classify A p = unsure) <-> p <> ham_cutoff A /\ p <> spam_cutoff A.
  Proof.
    rewrite classify_unsure. unfold is_unsure.
    pose proof (nlt_irrefl A HA) as Hirr.
    split.
    - intros H. split; intros ->.
      + rewrite Hirr in H. simpl in H. destruct H as [_ H].
        discriminate H. split; [done|]. by apply nlt_asym.
      + rewrite Hirr, andb_false_r in H. destruct H as [_ H].
        discriminate H. split; [by apply nlt_asym|done].
    - intros [H1 H2]. rewrite andb_true_iff. split.
      + intros [E1 E2]. split; by apply nlt_asym.
      + intros [E1 E2]. split.
        * destruct (nlt A (ham_cutoff A) p) eqn:E; [done|]. by destruct H1; apply (nlt_total A HA).
        * destruct (nlt A p (spam_cutoff A)) eqn:E; [done|]. by destruct H2; apply (nlt_total A HA).
  Qed.
End classify.

(** ** Changing the first header of a name *)

Fixpoint set_first (h : headers) (name : codes) (v : hval) : headers :=
  match h with
  | [] => []
  | (k, w) :: h => if decide (lower k = name) then (k, v) :: h else (k, w) :: set_first h name v
  end.

Lemma set_first_split l1 k w l2 name v :
  Forall (fun kv => lower kv.1 <> name) l1 -> lower k = name ->
  set_first (l1 ++ (k, w) :: l2) name v = l1 ++ (k, v) :: l2.
Proof.
  induction l1 as [|[k' x] l1 IH]; intros Hl Hk; simpl.
  - by rewrite decide_True.
  - apply Forall_cons in Hl as [H1 Hl]. rewrite decide_False by done. by rewrite IH.
Qed.

Lemma hreplace_first h n v w : first_is h (lower n) w -> hreplace h n v = Some (set_first h (lower n) v).
Proof.
  intros (l1 & k & l2 & -> & Hk & Hl). rewrite hreplace_split by done. by rewrite set_first_split.
Qed.

Lemma set_first_same h name v : first_is h name v -> set_first h name v = h.
Proof. intros (l1 & k & l2 & -> & Hk & Hl). by rewrite set_first_split. Qed.

Lemma set_first_is h name v w : first_is h name w -> first_is (set_first h name v) name v.
Proof.
  intros (l1 & k & l2 & -> & Hk & Hl). rewrite set_first_split by done. by exists l1, k, l2.
Qed.

Lemma set_first_twice h name v w : set_first (set_first h name v) name w = set_first h name w.
Proof.
  induction h as [|[k x] h IH]; [done|]. simpl.
  destruct (decide (lower k = name)); simpl.
  - by rewrite decide_True.
  - rewrite decide_False by done. by rewrite IH.
Qed.

Lemma set_first_comm h n1 n2 v w : n1 <> n2 ->
  set_first (set_first h n1 v) n2 w = set_first (set_first h n2 w) n1 v.
Proof.
  intros Hn. induction h as [|[k x] h IH]; [done|]. simpl.
  destruct (decide (lower k = n1)) as [H1|H1], (decide (lower k = n2)) as [H2|H2]; [congruence| | |]; simpl;
    repeat (case_decide; try done); by rewrite IH.
Qed.

Lemma set_first_names h name v : (set_first h name v).*1 = h.*1.
Proof.
  induction h as [|[k x] h IH]; [done|]. simpl.
  destruct (decide (lower k = name)); simpl; [done|]. f_equal. apply IH.
Qed.

Lemma set_first_app h h' name v w : first_is h name w -> set_first (h ++ h') name v = set_first h name v ++ h'.
Proof.
  intros (l1 & k & l2 & -> & Hk & Hl). rewrite set_first_split by done.
  rewrite <- !app_assoc. by apply set_first_split.
Qed.

Lemma first_is_set_first_ne h n1 n2 v w : n1 <> n2 -> first_is h n1 v -> first_is (set_first h n2 w) n1 v.
Proof.
  intros Hn (l1 & k & l2 & -> & Hk & Hl).
  induction l1 as [|[k' x] l1 IH]; simpl.
  - rewrite decide_False by congruence. by exists [], k, (set_first l2 n2 w).
  - apply Forall_cons in Hl as [H1 Hl]. destruct (decide (lower k' = n2)).
    + exists ((k', w) :: l1), k, l2. split_and!; [done|done|by constructor].
    + destruct (IH Hl) as (l1' & k2 & l2' & E & Hk2 & Hl'). rewrite E.
      exists ((k', x) :: l1'), k2, l2'. split_and!; [done|done|by constructor].
Qed.

Lemma absent_names h h' name : h'.*1 = h.*1 -> absent h name -> absent h' name.
Proof.
  unfold absent. intros E H.
  apply (Forall_fmap fst (fun k => lower k <> name)). rewrite E. by apply Forall_fmap.
Qed.

Lemma absent_set_first h n1 n2 w : absent h n1 -> absent (set_first h n2 w) n1.
Proof. apply absent_names, set_first_names. Qed.

Lemma others_names_ok h : Forall (fun kv => ~ is_filter_header kv.1) (others h).
Proof. unfold others. apply Forall_forall. intros kv. rewrite elem_of_list_filter. tauto. Qed.

Lemma others_id h : Forall (fun kv => ~ is_filter_header kv.1) h -> others h = h.
Proof.
  intros H. unfold others. induction H as [|kv h H Hh IH]; [done|].
  rewrite filter_cons_True by done. by rewrite IH.
Qed.

Lemma others_nil h : Forall (fun kv => is_filter_header kv.1) h -> others h = [].
Proof.
  intros H. unfold others. induction H as [|kv h H Hh IH]; [done|].
  rewrite filter_cons_False; [done|tauto].
Qed.

Lemma others_app h h' : others (h ++ h') = others h ++ others h'.
Proof. apply filter_app. Qed.

Lemma others_set_first h name v : name ∉ filter_headers ->
  others (set_first h name v) = set_first (others h) name v.
Proof.
  intros Hn. unfold others. induction h as [|[k x] h IH]; [done|]. simpl.
  destruct (decide (lower k = name)) as [E|E].
  - assert (Hk : ~ is_filter_header k) by (unfold is_filter_header; congruence).
    rewrite !filter_cons_True by done. simpl. by rewrite decide_True.
  - destruct (decide (is_filter_header k)).
    + rewrite !filter_cons_False by tauto. done.
    + rewrite !filter_cons_True by done. simpl. rewrite decide_False by done. by rewrite IH.
Qed.

Lemma first_is_others h name v : name ∉ filter_headers -> first_is h name v -> first_is (others h) name v.
Proof.
  intros Hn (l1 & k & l2 & -> & Hk & Hl). exists (others l1), k, (others l2).
  rewrite others_app. unfold others at 2. rewrite filter_cons_True
    by (simpl; unfold is_filter_header; congruence).
  split_and!; [done|done|].
  unfold others. apply Forall_forall. intros kv. rewrite elem_of_list_filter. intros [_ Hi].
  rewrite Forall_forall in Hl. auto.
Qed.

Lemma absent_others h name : absent h name -> absent (others h) name.
Proof.
  unfold absent, others. rewrite !Forall_forall. intros H kv. rewrite elem_of_list_filter. naive_solver.
Qed.

Lemma first_is_others_inv h name v :
  name ∉ filter_headers -> first_is (others h) name v -> first_is h name v.
Proof.
  intros Hn Hv. destruct (absent_or_first h name) as [Ha|[w Hw]].
  - exfalso. eapply absent_not_first; [by apply absent_others|done].
  - by rewrite (first_is_fun _ _ _ _ Hv (first_is_others _ _ _ Hn Hw)).
Qed.

Lemma subject_not_filter : str "subject" ∉ filter_headers.
Proof. apply (bool_decide_unpack _). by vm_compute. Qed.
Lemma to_not_filter : str "to" ∉ filter_headers.
Proof. apply (bool_decide_unpack _). by vm_compute. Qed.
Lemma lower_subject : lower n_subject = str "subject".
Proof. by vm_compute. Qed.
Lemma lower_to : lower n_to = str "to".
Proof. by vm_compute. Qed.
Lemma subject_ne_to : str "subject" <> str "to".
Proof. done. Qed.

(** ** Notations *)

Lemma strip_prefix_spec d s r : strip_prefix d s = Some r <-> s = d ++ r.
Proof.
  revert s. induction d as [|x d IH]; intros s; simpl.
  - split; [by intros [= ->]|by intros ->].
  - destruct s as [|y s]; [done|]. destruct (N.eqb_spec x y) as [->|Hne].
    + rewrite IH. split; [by intros ->|by intros [= ->]].
    + split; [done|]. intros [=]. congruence.
Qed.

Lemma strip_first_some ds s r : strip_first ds s = Some r -> exists d, d ∈ ds /\ s = d ++ r.
Proof.
  induction ds as [|d ds IH]; simpl; [done|].
  destruct (strip_prefix d s) as [r'|] eqn:E.
  - intros [= ->]. apply strip_prefix_spec in E. exists d. split; [left|done].
  - intros H. destruct (IH H) as (d' & Hd & ->). exists d'. split; [by right|done].
Qed.

Lemma strip_first_none ds s : strip_first ds s = None -> forall d r, d ∈ ds -> s <> d ++ r.
Proof.
  induction ds as [|d ds IH]; simpl; intros H d' r Hd.
  - by apply elem_of_nil in Hd.
  - destruct (strip_prefix d s) as [r'|] eqn:E; [done|].
    apply elem_of_cons in Hd as [->|Hd]; [|by apply IH].
    intros Es. apply strip_prefix_spec in Es. congruence.
Qed.

Lemma strip_first_none_iff ds s : (forall d r, d ∈ ds -> s <> d ++ r) -> strip_first ds s = None.
Proof.
  intros H. destruct (strip_first ds s) as [r|] eqn:E; [|done].
  apply strip_first_some in E as (d & Hd & Es). by destruct (H d r Hd).
Qed.

Lemma subject_notations_spec d : d ∈ subject_notations <-> subject_notation d.
Proof. done. Qed.
Lemma to_notations_spec d : d ∈ to_notations <-> to_notation d.
Proof. done. Qed.

Lemma strip_subject d s : subject_notation d -> strip_first subject_notations (d ++ s) = Some s.
Proof.
  intros H. unfold subject_notation in H.
  repeat (apply elem_of_cons in H as [->|H]; [done|]). by apply elem_of_nil in H.
Qed.

Lemma strip_to d s : to_notation d -> strip_first to_notations (d ++ s) = Some s.
Proof.
  intros H. unfold to_notation in H.
  repeat (apply elem_of_cons in H as [->|H]; [done|]). by apply elem_of_nil in H.
Qed.

Lemma has_surrogates_spec s : has_surrogates s = false <-> no_raw s.
Proof.
  unfold has_surrogates, no_raw. induction s as [|c s IH]; simpl; [by split; [constructor|]|].
  rewrite orb_false_iff, IH, Forall_cons. unfold is_surrogate.
  rewrite andb_false_iff, !N.leb_gt. split; intros [H1 H2]; (split; [lia|done]).
Qed.

Lemma payload_raises hstr m : snd (set_id_from_payload hstr m) = Err TypeError <->
  (exists s, first_is (g_h m) (str "x-spambayes-mailid") (HText s) /\ ~ no_raw s /\
    (g_id m = None \/ g_id m = Some [] \/ g_id m = Some (hstr s))).
Proof.
  unfold set_id_from_payload.
  assert (forall s, first_is (g_h m) (str "x-spambayes-mailid") (HText s) -> hget (g_h m) n_mailid = fetch (HText s)) as Hf.
  { intros s Hs. exact (hget_first (g_h m) n_mailid (HText s) Hs). }
  split.
  - intros H. destruct (absent_or_first (g_h m) (lower n_mailid)) as [Hab|[v Hv]].
    + exfalso. rewrite (hget_absent (g_h m) n_mailid Hab) in H. unfold set_id in H. cbn [id_of_fetched] in H.
      destruct (g_id m) as [[|c s]|]; cbn in H; done.
    + rewrite (hget_first _ _ _ Hv) in H. destruct v as [t|]; [|exfalso].
      * exists t. split; [exact Hv|]. cbn [fetch] in H. destruct (has_surrogates t) eqn:Et.
        -- split; [intros Hr; apply has_surrogates_spec in Hr; congruence|].
           unfold set_id in H. cbn [id_of_fetched id_differs] in H.
           destruct (g_id m) as [[|c s]|]; [by right; left| |by left]. right; right.
           case_bool_decide as Hb; [by rewrite Hb|by cbn in H].
        -- exfalso. unfold set_id in H. cbn [id_of_fetched] in H.
           destruct (g_id m) as [[|c s]|]; repeat case_match; simplify_eq; done.
      * unfold set_id in H. cbn [id_of_fetched fetch] in H. destruct (g_id m) as [[|c s]|]; cbn in H; done.
  - intros (s&Hs&Hr&Hi). rewrite (Hf s Hs). cbn [fetch]. destruct (has_surrogates s) eqn:Es.
    + unfold set_id. cbn [id_of_fetched id_differs]. destruct Hi as [-> | [-> | ->]]; [done|done|].
      destruct (hstr s) as [|c t] eqn:Eh; [done|]. cbn [id_differs]. by rewrite bool_decide_eq_true_2.
    + exfalso. by apply Hr, has_surrogates_spec.
Qed.

Lemma no_raw_app s t : no_raw (s ++ t) <-> no_raw s /\ no_raw t.
Proof. apply Forall_app. Qed.

Lemma no_raw_subject_notation d : subject_notation d -> no_raw d.
Proof.
  intros H. unfold subject_notation in H.
  repeat (apply elem_of_cons in H as [->|H]; [apply has_surrogates_spec; by vm_compute|]).
  by apply elem_of_nil in H.
Qed.

Lemma no_raw_to_notation d : to_notation d -> no_raw d.
Proof.
  intros H. unfold to_notation in H.
  repeat (apply elem_of_cons in H as [->|H]; [apply has_surrogates_spec; by vm_compute|]).
  by apply elem_of_nil in H.
Qed.

(** Removing the notation of one header, by cases. *)
Lemma remove_notation_absent n ds flag h : absent h (lower n) -> remove_notation n ds flag h = (h, Ok tt).
Proof. intros H. unfold remove_notation. by rewrite hget_absent. Qed.

Lemma remove_notation_none n ds flag h :
  first_is h (lower n) HNone -> remove_notation n ds flag h = (h, Ok tt).
Proof. intros H. unfold remove_notation. by rewrite (hget_first _ _ _ H). Qed.

Lemma remove_notation_raw n ds flag h s : first_is h (lower n) (HText s) -> ~ no_raw s ->
  remove_notation n ds flag h = (h, if flag then Err AttributeError else Ok tt).
Proof.
  intros H Hs. unfold remove_notation. rewrite (hget_first _ _ _ H). simpl.
  destruct (has_surrogates s) eqn:E; [by destruct flag|]. by apply has_surrogates_spec in E.
Qed.

Lemma remove_notation_text n ds flag h s :
  Forall (fun d => d <> []) ds -> first_is h (lower n) (HText s) -> no_raw s ->
  remove_notation n ds flag h =
    (match strip_first ds s with
     | Some r => if flag then set_first h (lower n) (HText r) else h
     | None => h
     end, Ok tt).
Proof.
  intros Hds H Hs. unfold remove_notation. rewrite (hget_first _ _ _ H). simpl.
  apply has_surrogates_spec in Hs. rewrite Hs.
  destruct s as [|c s].
  - rewrite strip_first_none_iff; [done|]. intros d r Hd. rewrite Forall_forall in Hds.
    specialize (Hds d Hd). by destruct d.
  - destruct flag; [|by destruct (strip_first ds (c :: s))].
    destruct (strip_first ds (c :: s)) as [r|]; [|done].
    by rewrite (hreplace_first _ _ _ _ H).
Qed.

Lemma subject_notations_nonempty : Forall (fun d => d <> []) subject_notations.
Proof. by repeat constructor. Qed.
Lemma to_notations_nonempty : Forall (fun d => d <> []) to_notations.
Proof. by repeat constructor. Qed.

Lemma remove_notation_cases n ds flag h h' r :
  Forall (fun d => d <> []) ds -> remove_notation n ds flag h = (h', r) ->
  h' = h \/ exists s d, first_is h (lower n) (HText (d ++ s)) /\ d ∈ ds /\ h' = set_first h (lower n) (HText s).
Proof.
  intros Hds E. destruct (absent_or_first h (lower n)) as [Ha|[[s|] Hv]].
  - rewrite remove_notation_absent in E by done. left. by inversion E.
  - destruct (decide (no_raw s)) as [Hs|Hs].
    + rewrite (remove_notation_text _ _ _ _ s) in E by done. inversion E as [[E1 E2]].
      destruct (strip_first ds s) as [r'|] eqn:Es; [|by left].
      destruct flag; [|by left]. right.
      apply strip_first_some in Es as (d & Hd & ->). by exists r', d.
    + rewrite (remove_notation_raw _ _ _ _ s) in E by done. left. by inversion E.
  - rewrite remove_notation_none in E by done. left. by inversion E.
Qed.

(** ** Removing everything *)

Lemma remove_sb_headers_eq a b h :
  remove_sb_headers a b h =
    mbind (remove_notation n_subject subject_notations a) (fun _ =>
           remove_notation n_to to_notations b) (others h).
Proof. unfold remove_sb_headers, remove_notations. by rewrite delete_filter_headers. Qed.

Lemma first_at_names h h' name i : h'.*1 = h.*1 -> first_at h' name i -> first_at h name i.
Proof.
  intros E [(k & v & Hi & Hk) Hj].
  assert (Hn : forall j k, (exists v, h !! j = Some (k, v)) <-> (exists v, h' !! j = Some (k, v))).
  { intros j k0. pose proof (f_equal (fun l => l !! j) E) as Ej. rewrite !list_lookup_fmap in Ej.
    destruct (h !! j) as [[a x]|], (h' !! j) as [[a' x']|]; simpl in Ej; naive_solver. }
  split.
  - destruct (proj2 (Hn i k)) as [v' Hv']; [by exists v|]. by exists k, v'.
  - intros j k' v' Hlt Hl. destruct (proj1 (Hn j k')) as [v'' Hv'']; [by exists v'|]. by eapply Hj.
Qed.

Lemma set_first_lookup h name v i k w w' :
  first_is h name v -> forall x,
  h !! i = Some (k, w) -> set_first h name x !! i = Some (k, w') ->
  w' = w \/ (first_at h name i /\ w = v /\ w' = x).
Proof.
  intros (l1 & k0 & l2 & -> & Hk & Hl) x H1 H2. rewrite set_first_split in H2 by done.
  destruct (decide (i = length l1)) as [->|Hi].
  - right. rewrite list_lookup_middle in H1, H2 by done. simplify_eq. split_and!; [|done|done].
    split.
    + exists k, w. split; [|done]. by apply list_lookup_middle.
    + intros j k' v' Hj Hl1. rewrite lookup_app_l in Hl1 by done.
      rewrite Forall_forall in Hl. by apply (Hl (k', v')), elem_of_list_lookup_2 with j.
  - left. destruct (decide (i < length l1)).
    + rewrite lookup_app_l in H1, H2 by done. congruence.
    + rewrite lookup_app_r in H1, H2 by lia.
      destruct (i - length l1) as [|n0] eqn:En; [lia|]. simpl in H1, H2. congruence.
Qed.

Lemma set_first_lookup_exists h name x i k w :
  h !! i = Some (k, w) -> exists w', set_first h name x !! i = Some (k, w').
Proof.
  intros H. pose proof (f_equal (fun l => l !! i) (set_first_names h name x)) as E.
  rewrite !list_lookup_fmap, H in E. simpl in E.
  destruct (set_first h name x !! i) as [[a y]|]; simpl in E; [|done]. injection E as ->. by exists y.
Qed.

Lemma first_at_name h name i k v : first_at h name i -> h !! i = Some (k, v) -> lower k = name.
Proof. intros [(k' & v' & H & Hk) _] H'. congruence. Qed.

Lemma up_to_notation_refl h : up_to_notation h h.
Proof. split; [done|]. intros i k v v' H H'. left. congruence. Qed.

Lemma remove_spec a b h h' r :
  remove_sb_headers a b h = (h', r) ->
  Forall (fun kv => ~ is_filter_header kv.1) h' /\ up_to_notation (others h) h'.
Proof.
  rewrite remove_sb_headers_eq. unfold mbind. set (h0 := others h).
  assert (Hh0 : Forall (fun kv => ~ is_filter_header kv.1) h0) by apply others_names_ok.
  assert (Hfil : forall g : headers, g.*1 = h0.*1 -> Forall (fun kv => ~ is_filter_header kv.1) g).
  { intros g Eg. apply (Forall_fmap fst (fun k => ~ is_filter_header k)). rewrite Eg.
    by apply Forall_fmap. }
  enough (up_to_notation h0 h' -> Forall (fun kv => ~ is_filter_header kv.1) h' /\ up_to_notation h0 h') as Hgoal.
  2: { intros Hu. split; [|done]. apply Hfil. apply Hu. }
  intros E. apply Hgoal. clear Hgoal.
  destruct (remove_notation n_subject subject_notations a h0) as [h1 r1] eqn:E1.
  pose proof E1 as E1'. apply remove_notation_cases in E1'; [|apply subject_notations_nonempty].
  rewrite lower_subject in E1'.
  assert (H01 : up_to_notation h0 h1 /\ h1.*1 = h0.*1 /\
    forall i k v v', h0 !! i = Some (k, v) -> h1 !! i = Some (k, v') ->
      v' = v \/ (first_at h0 (str "subject") i /\ exists d s, subject_notation d /\ v = HText (d ++ s) /\ v' = HText s)).
  { destruct E1' as [->|(s & d & Hf & Hd & ->)].
    - split_and!; [apply up_to_notation_refl|done|]. intros i k v v' H H'. left. congruence.
    - split_and!; [split; [apply set_first_names|]|apply set_first_names|].
      + intros i k v v' H H'. destruct (set_first_lookup _ _ _ _ _ _ _ Hf _ H H') as [->|(Hat & -> & ->)];
          [by left|]. right. left. split; [done|]. exists d, s. by apply subject_notations_spec in Hd.
      + intros i k v v' H H'. destruct (set_first_lookup _ _ _ _ _ _ _ Hf _ H H') as [->|(Hat & -> & ->)];
          [by left|]. right. split; [done|]. exists d, s. by apply subject_notations_spec in Hd. }
  destruct H01 as (Hup & Hn & H01). destruct r1 as [[]|e].
  - apply remove_notation_cases in E; [|apply to_notations_nonempty]. rewrite lower_to in E.
    destruct E as [->|(s & d & Hf & Hd & ->)]; [done|].
    split; [by rewrite set_first_names|].
    intros i k v v' H H'.
    assert (exists w, h1 !! i = Some (k, w)) as [w Hw].
    { pose proof (f_equal (fun l => l !! i) Hn) as Ei. rewrite !list_lookup_fmap, H in Ei. simpl in Ei.
      destruct (h1 !! i) as [[a' y]|]; simpl in Ei; [|done]. injection Ei as ->. by exists y. }
    destruct (set_first_lookup _ _ _ _ _ _ _ Hf _ Hw H') as [->|(Hat & -> & ->)].
    + destruct (H01 i k v w H Hw) as [->|(Hs & Hx)]; [by left|]. right. left. by split.
    + apply (first_at_names h0 h1 _ _ Hn) in Hat. right. right. split; [done|].
      destruct (H01 i k v _ H Hw) as [<-|(Hs & Hx)].
      * exists d, s. by apply to_notations_spec in Hd.
      * pose proof (first_at_name _ _ _ _ _ Hat H). pose proof (first_at_name _ _ _ _ _ Hs H). destruct subject_ne_to; congruence.
  - by inversion E; subst.
Qed.

(** When does removal raise? *)
Lemma remove_notation_outcome n ds flag h :
  Forall (fun d => d <> []) ds ->
  (flag = true /\ raw_first h (lower n) /\ remove_notation n ds flag h = (h, Err AttributeError))
  \/ (~ (flag = true /\ raw_first h (lower n)) /\ exists h', remove_notation n ds flag h = (h', Ok tt)).
Proof.
  intros Hds. destruct (absent_or_first h (lower n)) as [Ha|[[s|] Hv]].
  - right. split; [|eexists; by apply remove_notation_absent].
    intros [_ (s & Hs & _)]. by eapply absent_not_first.
  - destruct (decide (no_raw s)) as [Hs|Hs].
    + right. split; [|eexists; by apply remove_notation_text].
      intros [_ (s' & Hs' & Hr)]. pose proof (first_is_fun _ _ _ _ Hv Hs') as [= <-]. done.
    + destruct flag.
      * left. split_and!; [done|by exists s|]. by apply (remove_notation_raw _ _ true _ s).
      * right. split; [naive_solver|]. eexists. by apply (remove_notation_raw _ _ false _ s).
  - right. split; [|eexists; by apply remove_notation_none].
    intros [_ (s & Hs & _)]. by pose proof (first_is_fun _ _ _ _ Hv Hs).
Qed.

Lemma raw_first_set_first h n1 n2 v : n1 <> n2 -> raw_first (set_first h n2 v) n1 <-> raw_first h n1.
Proof.
  intros Hn. split; intros (s & Hs & Hr); exists s; (split; [|done]).
  - destruct (absent_or_first h n1) as [Ha|[w Hw]].
    + exfalso. eapply absent_not_first; [by apply absent_set_first|done].
    + rewrite (first_is_fun _ _ _ _ Hs (first_is_set_first_ne _ _ _ _ v Hn Hw)). done.
  - by apply first_is_set_first_ne.
Qed.

Lemma raw_first_others h name : name ∉ filter_headers -> raw_first (others h) name <-> raw_first h name.
Proof.
  intros Hn. split; intros (s & Hs & Hr); exists s; (split; [|done]).
  - by apply first_is_others_inv.
  - by apply first_is_others.
Qed.

Lemma remove_raises a b h :
  let r := snd (remove_sb_headers a b h) in
  (r = Err AttributeError <->
     (a = true /\ raw_first h (str "subject")) \/ (b = true /\ raw_first h (str "to")))
  /\ (r = Ok tt \/ r = Err AttributeError).
Proof.
  cbv zeta. rewrite remove_sb_headers_eq. unfold mbind.
  pose proof (remove_notation_outcome n_subject subject_notations a (others h) subject_notations_nonempty) as H1.
  rewrite lower_subject, raw_first_others in H1 by apply subject_not_filter.
  destruct H1 as [(Ha & Hr & E1)|(Hn & h1 & E1)]; rewrite E1; [simpl; naive_solver|].
  pose proof (remove_notation_outcome n_to to_notations b h1 to_notations_nonempty) as H2.
  rewrite lower_to in H2.
  assert (Hraw : raw_first h1 (str "to") <-> raw_first h (str "to")).
  { rewrite <- (raw_first_others h) by apply to_not_filter.
    apply remove_notation_cases in E1; [|apply subject_notations_nonempty].
    destruct E1 as [->|(s & d & _ & _ & ->)]; [done|]. apply raw_first_set_first. done. }
  rewrite Hraw in H2.
  destruct H2 as [(Hb & Hr & E2)|(Hn2 & h2 & E2)]; rewrite E2; simpl; naive_solver.
Qed.

(** ** Adding *)
Section add.
  Context (hstr : codes -> codes) (A : num).
  Context (fs : F A -> codes) (lv : F A -> nat) (fc : pyword -> F A -> codes).
  Notation add := (add_sb_headers hstr A fs lv fc).

  Definition is_class_header (kv : codes * hval) : Prop := lower kv.1 = str "x-spambayes-classification".

  (** A step that only appends headers of the filter, none of them a classification. *)
  Definition appends (f : M mail unit) : Prop := forall m m', f m = (m', Ok tt) ->
    exists ext, m' = Mail (g_id m) (g_c m) (g_t m) (g_h m ++ ext)
      /\ Forall (fun kv => is_filter_header kv.1 /\ ~ is_class_header kv) ext.

  Lemma appends_mret : appends (mret tt).
  Proof. intros m m' [= <-]. exists []. rewrite app_nil_r. by destruct m. Qed.

  Lemma appends_if (b : bool) f : appends f -> appends (if b then f else mret tt).
  Proof. destruct b; [done|]. intros _. apply appends_mret. Qed.

  Lemma appends_hset n v : n ∈ [n_score; n_level; n_evidence; n_mailid] ->
    forall m, exists ext, Mail (g_id m) (g_c m) (g_t m) (hset (g_h m) n v) = Mail (g_id m) (g_c m) (g_t m) (g_h m ++ ext)
      /\ Forall (fun kv => is_filter_header kv.1 /\ ~ is_class_header kv) ext.
  Proof.
    intros Hn m. exists [(n, v)]. split; [done|]. constructor; [|constructor]. simpl.
    repeat (apply elem_of_cons in Hn as [->|Hn];
        [split; [apply (bool_decide_unpack _); by vm_compute|done]|]).
    by apply elem_of_nil in Hn.
  Qed.

  Lemma appends_score x : appends (add_score A fs x).
  Proof.
    intros m m'. unfold add_score. destruct x as [c|p|]; [done| |done]. intros [= <-].
    apply appends_hset. apply (bool_decide_unpack _); by vm_compute.
  Qed.
  Lemma appends_level x : appends (add_level A lv x).
  Proof.
    intros m m'. unfold add_level. destruct x as [c|p|]; [done| |done]. intros [= <-].
    apply appends_hset. apply (bool_decide_unpack _); by vm_compute.
  Qed.
  Lemma appends_evidence s : appends (m_hset n_evidence (HText s)).
  Proof.
    intros m m' [= <-]. apply appends_hset. apply (bool_decide_unpack _); by vm_compute.
  Qed.
  Lemma appends_mailid :
    appends (fun m => m_hset n_mailid (match g_id m with Some s => HText s | None => HNone end) m).
  Proof.
    intros m m' [= <-]. apply appends_hset. apply (bool_decide_unpack _); by vm_compute.
  Qed.

  Lemma mbind_ok {X Y} (f : M mail X) (k : X -> M mail Y) m m' (r : Y) :
    mbind f k m = (m', Ok r) -> exists m1 x, f m = (m1, Ok x) /\ k x m1 = (m', Ok r).
  Proof.
    unfold mbind. destruct (f m) as [m1 [x|e]]; [|done]. intros H. by exists m1, x.
  Qed.

  Lemma add_shape x clues o m m' :
    add x clues o m = (m', Ok tt) ->
    exists c ext, g_c m' = Some c
      /\ (match x with CFloat _ p => c = classify A p | CEnum _ c' => c = c' | COther _ => False end)
      /\ g_id m' = g_id m /\ g_t m' = g_t m
      /\ g_h m' = add_notations hstr (o_notate_to A o) (o_notate_subject A o) c
                    (g_h m ++ (n_class, HText (cls_name c)) :: ext)
      /\ Forall (fun kv => is_filter_header kv.1 /\ ~ is_class_header kv) ext.
  Proof.
    unfold add_sb_headers. intros E.
    apply mbind_ok in E as (m0 & c & E0 & E).
    assert (Hx : m0 = Mail (g_id m) (Some c) (g_t m) (g_h m)
      /\ (match x with CFloat _ p => c = classify A p | CEnum _ c' => c = c' | COther _ => False end)).
    { destruct x as [c0|p|]; simpl in E0; by inversion E0. }
    destruct Hx as [-> Hx]. clear E0.
    apply mbind_ok in E as (m1 & [] & E1 & E). injection E1 as <-.
    apply mbind_ok in E as (m2 & [] & E2 & E).
    apply (appends_if _ _ (appends_score x)) in E2 as (e2 & -> & H2).
    apply mbind_ok in E as (m3 & [] & E3 & E).
    apply (appends_if _ _ (appends_level x)) in E3 as (e3 & -> & H3).
    apply mbind_ok in E as (m4 & [] & E4 & E).
    apply (appends_if _ _ (appends_evidence _)) in E4 as (e4 & -> & H4).
    apply mbind_ok in E as (m5 & [] & E5 & E).
    apply (appends_if _ _ appends_mailid) in E5 as (e5 & -> & H5).
    cbn [g_id g_c g_t g_h] in E. injection E as <-.
    exists c, (e2 ++ e3 ++ e4 ++ e5). cbn [g_id g_c g_t g_h].
    split_and!; try done.
    - unfold hset. by rewrite <- !app_assoc.
    - by rewrite !Forall_app.
  Qed.

  (** ** Notations and lookups *)
  Lemma notate_to_present c h t :
    first_is h (str "to") (HText t) -> no_raw t ->
    notate_to_hdr hstr c h = set_first h (str "to") (HText ((cls_name c ++ str "@spambayes.invalid,") ++ t)).
  Proof.
    intros H Ht. unfold notate_to_hdr. rewrite <- lower_to in H |- *.
    rewrite (hreplace_first _ _ _ _ H), (hget_first _ _ _ H). simpl.
    apply has_surrogates_spec in Ht. rewrite Ht. simpl fmt_fetched.
    by destruct c.
  Qed.

  Lemma notate_subject_present c h s :
    first_is h (str "subject") (HText s) -> no_raw s ->
    notate_subject_hdr hstr c h = set_first h (str "subject") (HText ((cls_name c ++ str ",") ++ s)).
  Proof.
    intros H Ht. unfold notate_subject_hdr. rewrite <- lower_subject in H |- *.
    rewrite (hreplace_first _ _ _ _ H), (hget_first _ _ _ H). simpl.
    apply has_surrogates_spec in Ht. rewrite Ht. simpl fmt_fetched.
    by destruct c.
  Qed.

  Lemma notate_to_cases c h :
    (absent h (str "to") /\ notate_to_hdr hstr c h = h ++ [(n_to, HText (cls_name c ++ str "@spambayes.invalid"))])
    \/ exists v, notate_to_hdr hstr c h = set_first h (str "to") v.
  Proof.
    unfold notate_to_hdr. rewrite <- lower_to.
    destruct (absent_or_first h (lower n_to)) as [Ha|[v Hv]].
    - left. by rewrite hreplace_absent.
    - right. rewrite (hreplace_first _ _ _ _ Hv). by eexists.
  Qed.

  Lemma notate_subject_cases c h :
    (absent h (str "subject") /\ notate_subject_hdr hstr c h = h ++ [(n_subject, HText (cls_name c))])
    \/ exists v, notate_subject_hdr hstr c h = set_first h (str "subject") v.
  Proof.
    unfold notate_subject_hdr. rewrite <- lower_subject.
    destruct (absent_or_first h (lower n_subject)) as [Ha|[v Hv]].
    - left. by rewrite hreplace_absent.
    - right. rewrite (hreplace_first _ _ _ _ Hv). by eexists.
  Qed.

  Lemma subject_notation_of c : subject_notation (cls_name c ++ str ",").
  Proof. destruct c; apply (bool_decide_unpack _); by vm_compute. Qed.
  Lemma to_notation_of c : to_notation (cls_name c ++ str "@spambayes.invalid,").
  Proof. destruct c; apply (bool_decide_unpack _); by vm_compute. Qed.

  Lemma remove_subject_step a h d s :
    subject_notation d -> first_is h (str "subject") (HText (d ++ s)) -> no_raw s ->
    remove_notation n_subject subject_notations a h =
      (if a then set_first h (str "subject") (HText s) else h, Ok tt).
  Proof.
    intros Hd H Hs. rewrite <- lower_subject in H |- *.
    rewrite (remove_notation_text _ _ _ _ (d ++ s)); [|apply subject_notations_nonempty|done|].
    - by rewrite strip_subject.
    - apply no_raw_app. split; [by apply no_raw_subject_notation|done].
  Qed.

  Lemma remove_to_step a h d s :
    to_notation d -> first_is h (str "to") (HText (d ++ s)) -> no_raw s ->
    remove_notation n_to to_notations a h = (if a then set_first h (str "to") (HText s) else h, Ok tt).
  Proof.
    intros Hd H Hs. rewrite <- lower_to in H |- *.
    rewrite (remove_notation_text _ _ _ _ (d ++ s)); [|apply to_notations_nonempty|done|].
    - by rewrite strip_to.
    - apply no_raw_app. split; [by apply no_raw_to_notation|done].
  Qed.

  Lemma remove_subject_noop a h s :
    (forall d r, subject_notation d -> s <> d ++ r) -> first_is h (str "subject") (HText s) -> no_raw s ->
    remove_notation n_subject subject_notations a h = (h, Ok tt).
  Proof.
    intros Hd H Hs. rewrite <- lower_subject in H.
    rewrite (remove_notation_text _ _ _ _ s); [|apply subject_notations_nonempty|done|done].
    by rewrite strip_first_none_iff.
  Qed.

  Lemma remove_to_noop a h s :
    (forall d r, to_notation d -> s <> d ++ r) -> first_is h (str "to") (HText s) -> no_raw s ->
    remove_notation n_to to_notations a h = (h, Ok tt).
  Proof.
    intros Hd H Hs. rewrite <- lower_to in H.
    rewrite (remove_notation_text _ _ _ _ s); [|apply to_notations_nonempty|done|done].
    by rewrite strip_first_none_iff.
  Qed.

  Lemma add_remove_restores x clues o m m' c s t :
    Forall (fun kv => ~ is_filter_header kv.1) (g_h m) ->
    first_is (g_h m) (str "subject") (HText s) -> no_raw s ->
    first_is (g_h m) (str "to") (HText t) -> no_raw t ->
    add x clues o m = (m', Ok tt) -> g_c m' = Some c ->
    (c ∈ o_notate_subject A o \/ forall d r, subject_notation d -> s <> d ++ r) ->
    (c ∈ o_notate_to A o \/ forall d r, to_notation d -> t <> d ++ r) ->
    remove_sb_headers true true (g_h m') = (g_h m, Ok tt).
  Proof.
    intros Hf Hs Hs8 Ht Ht8 E Ec Hsub Hto.
    apply add_shape in E as (c' & ext & Ec' & _ & _ & _ & Eh & Hext).
    assert (c' = c) as -> by congruence. clear Ec Ec'.
    rewrite remove_sb_headers_eq, Eh. clear Eh. set (h := g_h m) in *.
    set (full := h ++ (n_class, HText (cls_name c)) :: ext).
    assert (Hof : others full = h).
    { unfold full. rewrite others_app, (others_id h) by done.
      rewrite (others_nil (_ :: ext)); [by rewrite app_nil_r|].
      constructor; [apply (bool_decide_unpack _); by vm_compute|].
      eapply Forall_impl; [exact Hext|naive_solver]. }
    assert (Hsf : first_is full (str "subject") (HText s)) by by apply first_is_app.
    assert (Htf : first_is full (str "to") (HText t)) by by apply first_is_app.
    assert (Hne : str "to" <> str "subject") by done.
    set (st := (cls_name c ++ str ",") ++ s).
    set (tt' := (cls_name c ++ str "@spambayes.invalid,") ++ t).
    assert (Eadd : others (add_notations hstr (o_notate_to A o) (o_notate_subject A o) c full) =
      (if bool_decide (c ∈ o_notate_subject A o) then fun h => set_first h (str "subject") (HText st) else fun h => h)
      ((if bool_decide (c ∈ o_notate_to A o) then fun h => set_first h (str "to") (HText tt') else fun h => h) h)).
    { unfold add_notations.
      destruct (bool_decide (c ∈ o_notate_to A o)), (bool_decide (c ∈ o_notate_subject A o)).
      - rewrite (notate_to_present c full t) by done.
        rewrite (notate_subject_present c _ s); [|by apply first_is_set_first_ne|done].
        rewrite others_set_first by apply subject_not_filter.
        rewrite others_set_first by apply to_not_filter. by rewrite Hof.
      - rewrite (notate_to_present c full t) by done.
        rewrite others_set_first by apply to_not_filter. by rewrite Hof.
      - rewrite (notate_subject_present c _ s) by done.
        rewrite others_set_first by apply subject_not_filter. by rewrite Hof.
      - done. }
    rewrite Eadd. clear Eadd Hof Hsf Htf. unfold mbind.
    destruct (bool_decide (c ∈ o_notate_subject A o)) eqn:B1, (bool_decide (c ∈ o_notate_to A o)) eqn:B2;
      try apply bool_decide_eq_false in B1; try apply bool_decide_eq_false in B2.
    - rewrite (remove_subject_step true _ (cls_name c ++ str ",") s);
        [|apply subject_notation_of| |done].
      2: { eapply set_first_is, first_is_set_first_ne; done. }
      rewrite set_first_twice.
      rewrite (remove_to_step true _ (cls_name c ++ str "@spambayes.invalid,") t);
        [|apply to_notation_of| |done].
      2: { apply first_is_set_first_ne; [done|]. by eapply set_first_is. }
      f_equal. rewrite set_first_comm by done. rewrite set_first_twice.
      rewrite set_first_comm by done. rewrite (set_first_same h (str "subject")) by done.
      by apply set_first_same.
    - rewrite (remove_subject_step true _ (cls_name c ++ str ",") s);
        [|apply subject_notation_of| |done].
      2: { by eapply set_first_is. }
      rewrite set_first_twice, set_first_same by done.
      destruct Hto as [?|Hto]; [done|]. by rewrite (remove_to_noop true _ t).
    - destruct Hsub as [?|Hsub]; [done|].
      rewrite (remove_subject_noop true _ s); [|done| |done].
      2: { by apply first_is_set_first_ne. }
      rewrite (remove_to_step true _ (cls_name c ++ str "@spambayes.invalid,") t);
        [|apply to_notation_of| |done].
      2: { by eapply set_first_is. }
      rewrite set_first_twice, set_first_same by done. done.
    - destruct Hsub as [?|Hsub]; [done|]. destruct Hto as [?|Hto]; [done|].
      rewrite (remove_subject_noop true _ s) by done. by rewrite (remove_to_noop true _ t).
  Qed.

  (** ** Notations without a header to put them in front of *)

  Lemma remove_keeps_first a b h name v :
    name ∉ filter_headers ->
    (name = str "subject" -> exists s, v = HText s /\ forall d r, subject_notation d -> s <> d ++ r) ->
    (name = str "to" -> exists s, v = HText s /\ forall d r, to_notation d -> s <> d ++ r) ->
    first_is h name v -> first_is (fst (remove_sb_headers a b h)) name v.
  Proof.
    intros Hn Hs Ht Hv. rewrite remove_sb_headers_eq. unfold mbind.
    apply first_is_others in Hv; [|done]. revert Hv. generalize (others h). clear h. intros h Hv.
    assert (H1 : forall h', fst (remove_notation n_subject subject_notations a h) = h' -> first_is h' name v).
    { intros h' E. destruct (remove_notation n_subject subject_notations a h) as [h1 r] eqn:E1.
      simpl in E. subst h1. apply remove_notation_cases in E1; [|apply subject_notations_nonempty].
      destruct E1 as [->|(s & d & Hf & Hd & ->)]; [done|]. rewrite lower_subject in *.
      destruct (decide (name = str "subject")) as [->|Hne]; [|by apply first_is_set_first_ne].
      destruct (Hs eq_refl) as (s' & -> & Hno). pose proof (first_is_fun _ _ _ _ Hv Hf) as [= ->].
      by destruct (Hno d s). }
    destruct (remove_notation n_subject subject_notations a h) as [h1 [[]|e]] eqn:E1; [|by apply H1].
    specialize (H1 h1 eq_refl). clear E1 Hv h.
    destruct (remove_notation n_to to_notations b h1) as [h2 r] eqn:E2. simpl.
    apply remove_notation_cases in E2; [|apply to_notations_nonempty].
    destruct E2 as [->|(s & d & Hf & Hd & ->)]; [done|]. rewrite lower_to in *.
    destruct (decide (name = str "to")) as [->|Hne]; [|by apply first_is_set_first_ne].
    destruct (Ht eq_refl) as (s' & -> & Hno). pose proof (first_is_fun _ _ _ _ H1 Hf) as [= ->].
    by destruct (Hno d s).
  Qed.

  Lemma name_not_notated c d r : subject_notation d -> cls_name c <> d ++ r.
  Proof.
    intros H E. pose proof (strip_subject d r H) as H'. rewrite <- E in H'.
    by destruct c; vm_compute in H'.
  Qed.

  Lemma address_not_notated c d r : to_notation d -> cls_name c ++ str "@spambayes.invalid" <> d ++ r.
  Proof.
    intros H E. pose proof (strip_to d r H) as H'. rewrite <- E in H'.
    by destruct c; vm_compute in H'.
  Qed.

  Lemma removals_keep_subject fl h c :
    first_is h (str "subject") (HText (cls_name c)) ->
    first_is (removals fl h) (str "subject") (HText (cls_name c)).
  Proof.
    revert h. induction fl as [|[a b] fl IH]; intros h H; [done|]. apply IH. simpl.
    apply remove_keeps_first; [apply subject_not_filter| |done|done].
    intros _. eexists. split; [done|]. apply name_not_notated.
  Qed.

  Lemma removals_keep_to fl h c :
    first_is h (str "to") (HText (cls_name c ++ str "@spambayes.invalid")) ->
    first_is (removals fl h) (str "to") (HText (cls_name c ++ str "@spambayes.invalid")).
  Proof.
    revert h. induction fl as [|[a b] fl IH]; intros h H; [done|]. apply IH. simpl.
    apply remove_keeps_first; [apply to_not_filter|done| |done].
    intros _. eexists. split; [done|]. apply address_not_notated.
  Qed.

  Lemma absent_filter_ext name (ext : headers) : name ∉ filter_headers ->
    Forall (fun kv => is_filter_header kv.1 /\ ~ is_class_header kv) ext -> absent ext name.
  Proof.
    intros Hn He. eapply Forall_impl; [exact He|]. intros kv [Hk _] E. unfold is_filter_header in Hk. congruence.
  Qed.

  Lemma absent_full h name c (ext : headers) : name ∉ filter_headers -> absent h name ->
    Forall (fun kv => is_filter_header kv.1 /\ ~ is_class_header kv) ext ->
    absent (h ++ (n_class, HText (cls_name c)) :: ext) name.
  Proof.
    intros Hn Ha He. apply Forall_app. split; [done|]. constructor; [|by apply absent_filter_ext].
    simpl. intros E. apply Hn. rewrite <- E. apply (bool_decide_unpack _). by vm_compute.
  Qed.

  Lemma subject_left_behind x clues o m m' c fl :
    absent (g_h m) (str "subject") -> add x clues o m = (m', Ok tt) -> g_c m' = Some c ->
    c ∈ o_notate_subject A o ->
    first_is (removals fl (g_h m')) (str "subject") (HText (cls_name c)).
  Proof.
    intros Ha E Ec Hc. apply add_shape in E as (c' & ext & Ec' & _ & _ & _ & Eh & Hext).
    assert (c' = c) as -> by congruence. apply removals_keep_subject. rewrite Eh. unfold add_notations.
    pose proof (absent_full _ _ c ext subject_not_filter Ha Hext) as Hab.
    revert Hab. generalize (g_h m ++ (n_class, HText (cls_name c)) :: ext). intros h Hab.
    rewrite (bool_decide_eq_true_2 (c ∈ o_notate_subject A o)) by done.
    set (h1 := if bool_decide (c ∈ o_notate_to A o) then notate_to_hdr hstr c h else h).
    assert (Hab1 : absent h1 (str "subject")).
    { unfold h1. destruct (bool_decide _); [|done].
      destruct (notate_to_cases c h) as [[_ ->]|[v ->]]; [|by apply absent_set_first].
      apply Forall_app. split; [done|]. constructor; [done|constructor]. }
    destruct (notate_subject_cases c h1) as [[_ ->]|[v Ev]].
    - apply first_is_app_r; [done|]. exists [], n_subject, []. split_and!; [done|by vm_compute|constructor].
    - exfalso. unfold notate_subject_hdr in Ev. rewrite hreplace_absent in Ev by (by rewrite lower_subject).
      apply (f_equal (fun l => length l)) in Ev. unfold hset in Ev. rewrite app_length in Ev.
      pose proof (f_equal length (set_first_names h1 (str "subject") v)) as El.
      rewrite !fmap_length in El. cbn [length] in Ev. lia.
  Qed.

  Lemma to_left_behind x clues o m m' c fl :
    absent (g_h m) (str "to") -> add x clues o m = (m', Ok tt) -> g_c m' = Some c ->
    c ∈ o_notate_to A o ->
    first_is (removals fl (g_h m')) (str "to") (HText (cls_name c ++ str "@spambayes.invalid")).
  Proof.
    intros Ha E Ec Hc. apply add_shape in E as (c' & ext & Ec' & _ & _ & _ & Eh & Hext).
    assert (c' = c) as -> by congruence. apply removals_keep_to. rewrite Eh. unfold add_notations.
    pose proof (absent_full _ _ c ext to_not_filter Ha Hext) as Hab.
    revert Hab. generalize (g_h m ++ (n_class, HText (cls_name c)) :: ext). intros h Hab.
    rewrite (bool_decide_eq_true_2 (c ∈ o_notate_to A o)) by done.
    assert (H1 : first_is (notate_to_hdr hstr c h) (str "to") (HText (cls_name c ++ str "@spambayes.invalid"))).
    { unfold notate_to_hdr. rewrite hreplace_absent by (by rewrite lower_to).
      apply first_is_app_r; [done|]. exists [], n_to, []. split_and!; [done|by vm_compute|constructor]. }
    destruct (bool_decide _); [|done].
    destruct (notate_subject_cases c (notate_to_hdr hstr c h)) as [[_ ->]|[v ->]].
    - by apply first_is_app.
    - by apply first_is_set_first_ne.
  Qed.

  (** ** The exchanged options *)
  Lemma options_exchanged a b h d s e t :
    subject_notation d -> first_is h (str "subject") (HText (d ++ s)) -> no_raw s ->
    to_notation e -> first_is h (str "to") (HText (e ++ t)) -> no_raw t ->
    let r := remove_sb_headers a b h in
    snd r = Ok tt
    /\ first_is (fst r) (str "subject") (HText (if a then s else d ++ s))
    /\ first_is (fst r) (str "to") (HText (if b then t else e ++ t)).
  Proof.
    intros Hd Hs Hs8 He Ht Ht8. cbv zeta. rewrite remove_sb_headers_eq. unfold mbind.
    apply first_is_others in Hs; [|apply subject_not_filter].
    apply first_is_others in Ht; [|apply to_not_filter].
    rewrite (remove_subject_step a _ d s) by done.
    assert (Ht' : first_is (if a then set_first (others h) (str "subject") (HText s) else others h)
                    (str "to") (HText (e ++ t))) by (destruct a; [by apply first_is_set_first_ne|done]).
    assert (Hs' : first_is (if a then set_first (others h) (str "subject") (HText s) else others h)
                    (str "subject") (HText (if a then s else d ++ s)))
      by (destruct a; [by eapply set_first_is|done]).
    revert Ht' Hs'. generalize (if a then set_first (others h) (str "subject") (HText s) else others h).
    intros h1 Ht' Hs'. rewrite (remove_to_step b _ e t) by done. simpl.
    split_and!; [done|destruct b; [by apply first_is_set_first_ne|done]|destruct b; [by eapply set_first_is|done]].
  Qed.

  (** ** Repeated classification *)
  Notation n_cl := (str "x-spambayes-classification").

  Lemma count_header_names h h' name : h'.*1 = h.*1 -> count_header h' name = count_header h name.
  Proof.
    unfold count_header. revert h'. induction h as [|[k v] h IH]; intros [|[k' v'] h'] E; try done.
    injection E as -> E. simpl. rewrite !filter_cons. simpl. destruct (decide (lower k = name)); simpl;
      [f_equal|]; by apply IH.
  Qed.

  Lemma count_header_app h h' name : count_header (h ++ h') name = count_header h name + count_header h' name.
  Proof. unfold count_header. by rewrite filter_app, app_length. Qed.

  Lemma notations_keep_class nto nsub c h v :
    (first_is h n_cl v -> first_is (add_notations hstr nto nsub c h) n_cl v)
    /\ count_header (add_notations hstr nto nsub c h) n_cl = count_header h n_cl.
  Proof.
    unfold add_notations.
    set (h1 := if bool_decide (c ∈ nto) then notate_to_hdr hstr c h else h).
    assert (H1 : (first_is h n_cl v -> first_is h1 n_cl v) /\ count_header h1 n_cl = count_header h n_cl).
    { unfold h1. destruct (bool_decide _); [|done].
      destruct (notate_to_cases c h) as [[_ ->]|[w ->]].
      - split; [intros; by apply first_is_app|]. rewrite count_header_app. by vm_compute (count_header [_] _).
      - split; [intros; by apply first_is_set_first_ne|]. apply count_header_names, set_first_names. }
    destruct (bool_decide (c ∈ nsub)); [|done].
    destruct (notate_subject_cases c h1) as [[_ ->]|[w ->]].
    - split; [intros; apply first_is_app; naive_solver|].
      rewrite count_header_app. destruct H1 as [_ <-]. by vm_compute (count_header [_] _).
    - split; [intros; apply first_is_set_first_ne; [done|naive_solver]|].
      destruct H1 as [_ <-]. apply count_header_names, set_first_names.
  Qed.

  Lemma count_ext ext : Forall (fun kv => is_filter_header kv.1 /\ ~ is_class_header kv) ext ->
    count_header ext n_cl = 0.
  Proof.
    intros He. unfold count_header. induction He as [|kv ext [_ H] He IH]; [done|].
    by rewrite filter_cons_False.
  Qed.

  Lemma add_count x clues o m m' :
    add x clues o m = (m', Ok tt) -> count_header (g_h m') n_cl = S (count_header (g_h m) n_cl).
  Proof.
    intros E. apply add_shape in E as (c & ext & Ec & _ & _ & _ & Eh & Hext). rewrite Eh.
    rewrite (proj2 (notations_keep_class _ _ _ _ HNone)).
    rewrite cons_middle, !count_header_app, (count_ext ext) by done.
    change (count_header [(n_class, HText (cls_name c))] n_cl) with 1. lia.
  Qed.

  Lemma add_keeps_first x clues o m m' v :
    add x clues o m = (m', Ok tt) -> first_is (g_h m) n_cl v -> first_is (g_h m') n_cl v.
  Proof.
    intros E H. apply add_shape in E as (c & ext & Ec & _ & _ & _ & Eh & Hext). rewrite Eh.
    apply notations_keep_class. by apply first_is_app.
  Qed.

  Lemma add_first x clues o m m' c :
    add x clues o m = (m', Ok tt) -> g_c m' = Some c -> absent (g_h m) n_cl ->
    first_is (g_h m') n_cl (HText (cls_name c)).
  Proof.
    intros E Ec H. apply add_shape in E as (c' & ext & Ec' & _ & _ & _ & Eh & Hext). rewrite Eh.
    assert (c' = c) as -> by congruence.
    apply notations_keep_class. apply first_is_app_r; [done|]. exists [], n_class, ext.
    split_and!; [done|by vm_compute|constructor].
  Qed.

  Lemma classified_keeps cs m m' v :
    classified hstr fs lv fc cs m m' -> first_is (g_h m) n_cl v -> first_is (g_h m') n_cl v.
  Proof. induction 1; intros; [done|]. eauto using add_keeps_first. Qed.

  Lemma classified_count cs m m' :
    classified hstr fs lv fc cs m m' ->
    count_header (g_h m') n_cl = length cs + count_header (g_h m) n_cl.
  Proof.
    induction 1 as [|x clues o c cs m m' m'' E Ec H IH]; [done|].
    rewrite IH, (add_count _ _ _ _ _ E). simpl. lia.
  Qed.

  Lemma classified_last cs m m' c :
    classified hstr fs lv fc cs m m' -> last cs = Some c -> g_c m' = Some c.
  Proof.
    intros H. revert c. induction H as [|x clues o c cs m m' m'' E Ec H IH]; intros c0 Hl; [done|].
    rewrite last_cons in Hl. destruct (last cs) as [c1|] eqn:El; [naive_solver|].
    apply last_None in El as ->. inversion H; subst. congruence.
  Qed.

  Lemma first_reported c cs m m' :
    absent (g_h m) n_cl -> classified hstr fs lv fc (c :: cs) m m' ->
    first_is (g_h m') n_cl (HText (cls_name c)) /\ hget (g_h m') n_class = FText (cls_name c)
    /\ count_header (g_h m') n_cl = S (length cs)
    /\ (forall c', last (c :: cs) = Some c' -> g_c m' = Some c').
  Proof.
    intros Ha H. pose proof H as H0. inversion H as [|x clues o c1 cs1 m1 m2 m3 E Ec Hr]; subst.
    assert (Hf : first_is (g_h m') n_cl (HText (cls_name c))).
    { eapply classified_keeps; [exact Hr|]. by eapply add_first. }
    split_and!; [done| | |].
    - rewrite (hget_first (g_h m') n_class (HText (cls_name c)) Hf). by destruct c.
    - rewrite (classified_count _ _ _ H0).
      enough (count_header (g_h m) n_cl = 0) by (cbn [length]; lia).
      unfold count_header. induction (g_h m) as [|kv h IH]; [done|].
      apply Forall_cons in Ha as [Hk Ha]. rewrite filter_cons_False by done. auto.
    - intros c'. by eapply classified_last.
  Qed.

  Lemma notations_keep_filter_first nto nsub c h name v : name ∈ filter_headers ->
    first_is h name v -> first_is (add_notations hstr nto nsub c h) name v.
  Proof.
    intros Hn H. unfold add_notations.
    assert (name <> str "to") by (intros ->; by apply to_not_filter).
    assert (name <> str "subject") by (intros ->; by apply subject_not_filter).
    assert (Hf1 : first_is (if bool_decide (c ∈ nto) then notate_to_hdr hstr c h else h) name v).
    { destruct (bool_decide _); [|done].
      destruct (notate_to_cases c h) as [[_ ->]|[w ->]]; [by apply first_is_app|by apply first_is_set_first_ne]. }
    destruct (bool_decide (c ∈ nsub)); [|done].
    destruct (notate_subject_cases c (if bool_decide (c ∈ nto) then notate_to_hdr hstr c h else h))
      as [[_ ->]|[w ->]]; [by apply first_is_app|by apply first_is_set_first_ne].
  Qed.

  Lemma level_header_added p clues o m m' :
    o_thermostat A o = true -> absent (g_h m) (str "x-spambayes-level") ->
    add (CFloat A p) clues o m = (m', Ok tt) ->
    first_is (g_h m') (str "x-spambayes-level") (HText (replicate (lv p) 42%N)).
  Proof.
    intros Ho Ha E. unfold add_sb_headers in E.
    apply mbind_ok in E as (m0 & c & E0 & E). injection E0 as <- <-.
    apply mbind_ok in E as (m1 & [] & E1 & E). injection E1 as <-.
    apply mbind_ok in E as (m2 & [] & E2 & E).
    assert (H2 : absent (g_h m2) (str "x-spambayes-level")).
    { assert (H1 : absent (hset (g_h m) n_class (HText (cls_name (classify A p)))) (str "x-spambayes-level")).
      { apply Forall_app. split; [done|]. constructor; [done|constructor]. }
      destruct (o_score A o); injection E2 as <-; [|done].
      apply Forall_app. split; [done|]. constructor; [done|constructor]. }
    clear E2. rewrite Ho in E.
    apply mbind_ok in E as (m3 & [] & E3 & E). injection E3 as <-.
    assert (H3 : first_is (hset (g_h m2) n_level (HText (replicate (lv p) 42%N)))
                   (str "x-spambayes-level") (HText (replicate (lv p) 42%N))).
    { apply first_is_app_r; [done|]. exists [], n_level, []. split_and!; [done|by vm_compute|constructor]. }
    revert H3 E. generalize (hset (g_h m2) n_level (HText (replicate (lv p) 42%N))). intros h3 H3 E.
    apply mbind_ok in E as (m4 & [] & E4 & E).
    apply (appends_if _ _ (appends_evidence _)) in E4 as (e4 & -> & _).
    apply mbind_ok in E as (m5 & [] & E5 & E).
    apply (appends_if _ _ appends_mailid) in E5 as (e5 & -> & _).
    cbn [g_id g_c g_t g_h] in E. injection E as <-. cbn [g_h].
    apply notations_keep_filter_first; [apply (bool_decide_unpack _); by vm_compute|].
    by do 2 apply first_is_app.
  Qed.
End add.

(** ** Saving and restoring the filter's headers *)

Lemma hget_app_absent h h' n : absent h (lower n) -> hget (h ++ h') n = hget h' n.
Proof.
  induction h as [|[k v] h IH]; intros Ha; [done|]. apply Forall_cons in Ha as [Hk Ha]. simpl in *.
  apply same_name_false in Hk. rewrite Hk. auto.
Qed.

Lemma no_filter_absent h n : n ∈ sb_names -> Forall (fun kv => ~ is_filter_header kv.1) h -> absent h (lower n).
Proof.
  intros Hn Hh. eapply Forall_impl; [exact Hh|]. intros kv Hk E. apply Hk. apply lower_sb.
  apply Exists_exists. exists n. split; [done|]. by apply same_name_true.
Qed.

Lemma reassign_app h d : reassign h d = h ++ ((fun kv => (kv.1, HText kv.2)) <$> d).
Proof.
  unfold reassign. revert h. induction d as [|kv d IH]; intros h; simpl; [by rewrite app_nil_r|].
  rewrite IH. unfold hset. by rewrite <- app_assoc.
Qed.

Lemma sb_names_nodup : NoDup (lower <$> sb_names).
Proof. apply (bool_decide_unpack _). by vm_compute. Qed.

(** Reading the names ns from a list that assigns some of them in order. *)
Lemma current_reassigned (ns : list codes) (g : codes -> fetched) d pre :
  NoDup (lower <$> ns) ->
  (forall n, n ∈ ns -> absent pre (lower n)) ->
  omap (fun n => match g n with FNone => None | f => Some (n, f) end) ns = (fun kv => (kv.1, FText kv.2)) <$> d ->
  (forall n s, n ∈ ns -> g n = FText s -> has_surrogates s = false) ->
  forall n, n ∈ ns -> hget (pre ++ ((fun kv => (kv.1, HText kv.2)) <$> d)) n = g n.
Proof.
  revert d pre. induction ns as [|n0 ns IH]; intros d pre Hnd Hpre Ed Hraw n Hn; [by apply elem_of_nil in Hn|].
  rewrite fmap_cons in Hnd. apply NoDup_cons in Hnd as [Hn0 Hnd].
  assert (Hother : n <> n0 -> n ∈ ns) by (apply elem_of_cons in Hn as [->|]; done).
  destruct (g n0) as [|s|s] eqn:Eg.
  - cbn [omap list_omap] in Ed. simpl in Ed. rewrite Eg in Ed.
    destruct (decide (n = n0)) as [->|Hne].
    + rewrite Eg, hget_app_absent by (apply Hpre; left).
      apply hget_absent. unfold absent. rewrite Forall_forall. intros [k v] Hk.
      apply elem_of_list_fmap in Hk as ([k' s'] & [= -> ->] & Hk'). simpl.
      assert (Hin : (k', FText s') ∈ omap (fun n => match g n with FNone => None | f => Some (n, f) end) ns).
      { rewrite Ed. by apply (elem_of_list_fmap_1 (fun kv => (kv.1, FText kv.2)) d (k', s')). }
      apply elem_of_list_omap in Hin as (x & Hx & Ex).
      assert (x = k') as -> by (destruct (g x); congruence).
      intros El. apply Hn0. rewrite <- El. by apply elem_of_list_fmap_1.
    + apply IH; [done|intros; apply Hpre; by right|done|intros; eapply Hraw; [by right|done]|by auto].
  - cbn [omap list_omap] in Ed. simpl in Ed. rewrite Eg in Ed.
    destruct d as [|[k s'] d]; [done|]. rewrite fmap_cons in Ed. injection Ed as -> -> Ed. simpl in Ed.
    rewrite fmap_cons. simpl.
    destruct (decide (n = k)) as [->|Hne].
    + rewrite hget_split; [|by apply Hpre; left|done]. rewrite Eg. simpl.
      rewrite (Hraw k s'); [done|left|done].
    + rewrite cons_middle, (app_assoc pre).
      apply IH; [done| |done| |by auto].
      * intros n' Hn'. apply Forall_app. split; [apply Hpre; by right|]. simpl.
        constructor; [|constructor]. simpl. intros El. apply Hn0. rewrite El. by apply elem_of_list_fmap_1.
      * intros; eapply Hraw; [by right|done].
  - cbn [omap list_omap] in Ed. simpl in Ed. rewrite Eg in Ed. by destruct d.
Qed.

Lemma current_of_removed a b h : current_sb_headers (fst (remove_sb_headers a b h)) = [].
Proof.
  destruct (remove_sb_headers a b h) as [h' r] eqn:E. apply remove_spec in E as [Hf _]. simpl.
  unfold current_sb_headers.
  assert (H : forall ns, (forall n, n ∈ ns -> n ∈ sb_names) ->
    omap (fun n => match hget h' n with FNone => None | f => Some (n, f) end) ns = []).
  { induction ns as [|n ns IH]; intros Hns; [done|]. cbn [omap list_omap].
    rewrite hget_absent; [apply IH; intros; apply Hns; by right|].
    apply no_filter_absent; [apply Hns; left|done]. }
  apply H. done.
Qed.

Lemma hget_text_no_raw h n s : hget h n = FText s -> has_surrogates s = false.
Proof.
  induction h as [|[k v] h IH]; simpl; [done|]. destruct (same_name k n); [|done].
  destruct v as [t|]; simpl; [|done]. destruct (has_surrogates t) eqn:E; [done|]. by intros [= <-].
Qed.

Lemma saved_headers_restored a b h d :
  current_sb_headers h = (fun kv => (kv.1, FText kv.2)) <$> d ->
  let h' := fst (remove_sb_headers a b h) in
  current_sb_headers h' = [] /\ current_sb_headers (reassign h' d) = current_sb_headers h.
Proof.
  intros Ed. cbv zeta. split; [apply current_of_removed|].
  rewrite reassign_app.
  destruct (remove_sb_headers a b h) as [h' r] eqn:E. apply remove_spec in E as [Hf _]. simpl.
  assert (H : forall n, n ∈ sb_names -> hget (h' ++ ((fun kv => (kv.1, HText kv.2)) <$> d)) n = hget h n).
  { apply (current_reassigned sb_names (hget h) d h'); [apply sb_names_nodup| |exact Ed|].
    - intros n Hn. by apply no_filter_absent.
    - intros n s _. apply hget_text_no_raw. }
  unfold current_sb_headers. revert H. generalize sb_names. intros ns H.
  induction ns as [|n ns IH]; [done|]. cbn [omap list_omap].
  rewrite (H n) by left. rewrite IH; [done|]. intros n' Hn'. apply H. by right.
Qed.
