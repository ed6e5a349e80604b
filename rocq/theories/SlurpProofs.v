(** * The slurping classifier and base_url: lemmas *)
From Coq Require Import String Lia.
From Verif Require Import Py NumModel ClassifierModel TrainSpec ScoreSpec TrainProofs ApiProofs
  NetModel NetSpec NetProofs SlurpModel SlurpSpec.

Section slurp.
  Context {A : num} {St : Type} (bk : backend St) (it : set_order).

  Lemma setup_raises mk (o : slurper A St) :
    setup mk o = (Slurper (s_obj o) (s_setup o) (s_dir o || match mk with Ok _ => true | Err _ => false end),
                  Err (if s_dir o then TypeError else match mk with Ok _ => TypeError | Err e => e end)).
  Proof. unfold setup. destruct o as [b s [|]]; simpl; [done|]. by destruct mk. Qed.

  Lemma generate_slurp_raises mk (o : slurper A St) : s_setup o = false ->
    generate_slurp mk o =
      (Slurper (s_obj o) false (s_dir o || match mk with Ok _ => true | Err _ => false end),
       Err (if s_dir o then TypeError else match mk with Ok _ => TypeError | Err e => e end)).
  Proof. intros Hs. unfold generate_slurp. rewrite Hs, setup_raises. simpl. by rewrite Hs. Qed.

  Lemma slurp_train_raises mk train s b (o : slurper A St) : s_setup o = false ->
    let '(o', r) := slurp_train mk train s b o in
    s_obj o' = s_obj o /\ s_setup o' = false /\
    r = Err (match o_bigrams (s_obj o) with
             | None => AttributeError
             | Some _ => if s_dir o then TypeError else match mk with Ok _ => TypeError | Err e => e end
             end) /\
    (s_dir o' = true <-> s_dir o = true \/ (o_bigrams (s_obj o) <> None /\ mk = Ok tt)).
  Proof.
    intros Hs. unfold slurp_train. destruct (o_bigrams (s_obj o)) as [bg|].
    - unfold mbind. rewrite generate_slurp_raises by done. simpl. split_and!; try done.
      rewrite orb_true_iff. destruct mk as [[]|e]; naive_solver.
    - split_and!; try done. naive_solver.
  Qed.

  Lemma slurp_spamprob_raises s ev (o : slurper A St) :
    let '(o', r) := slurp_spamprob bk it s ev o in
    s_obj o' = fst (spamprob_evidence bk it s (s_obj o)) /\ s_setup o' = s_setup o /\ s_dir o' = s_dir o /\
    r = Err (match snd (spamprob_evidence bk it s (s_obj o)) with Ok _ => TypeError | Err e => e end).
  Proof.
    unfold slurp_spamprob, mbind, on_obj.
    by destruct (spamprob_evidence bk it s (s_obj o)) as [b [[p l]|e]].
  Qed.

  Lemma slurp_run_spec cs : forall o : slurper A St, s_setup o = false ->
    let '(o', rs) := slurp_run bk it cs o in
    s_setup o' = false /\
    s_obj o' = fst (run bk it (filter is_score (snd <$> cs)) (s_obj o)) /\
    length rs = length cs /\ Forall (fun r => exists e, r = Err e) rs.
  Proof.
    induction cs as [|[mk c] cs IH]; intros o Hs; simpl; [done|].
    destruct c as [s b|s b|s]; simpl.
    - pose proof (slurp_train_raises mk (add_msg bk it) s b o Hs) as H. unfold slurp_learn.
      destruct (slurp_train mk (add_msg bk it) s b o) as [o1 r1]. destruct H as (H1 & H2 & H3 & _).
      specialize (IH o1 H2). destruct (slurp_run bk it cs o1) as [o2 rs]. destruct IH as (I1 & I2 & I3 & I4).
      rewrite H1 in I2. rewrite filter_cons_False by (simpl; tauto).
      split_and!; [done|done|simpl; by rewrite I3|]. constructor; [by eexists|done].
    - pose proof (slurp_train_raises mk (remove_msg bk it) s b o Hs) as H. unfold slurp_unlearn.
      destruct (slurp_train mk (remove_msg bk it) s b o) as [o1 r1]. destruct H as (H1 & H2 & H3 & _).
      specialize (IH o1 H2). destruct (slurp_run bk it cs o1) as [o2 rs]. destruct IH as (I1 & I2 & I3 & I4).
      rewrite H1 in I2. rewrite filter_cons_False by (simpl; tauto).
      split_and!; [done|done|simpl; by rewrite I3|]. constructor; [by eexists|done].
    - pose proof (slurp_spamprob_raises s true o) as H.
      destruct (slurp_spamprob bk it s true o) as [o1 r1]. destruct H as (H1 & H2 & _ & ->).
      rewrite Hs in H2. specialize (IH o1 H2). destruct (slurp_run bk it cs o1) as [o2 rs]. destruct IH as (I1 & I2 & I3 & I4).
      change (filter is_score (CScore s :: (snd <$> cs))) with (CScore s :: filter is_score (snd <$> cs)). simpl.
      destruct (spamprob_evidence bk it s (s_obj o)) as [b r]. simpl in *. subst b.
      change (list_fmap (res () * call)%type call snd cs) with (snd <$> cs).
      destruct (run bk it (filter is_score (snd <$> cs)) (s_obj o1)) as [o3 rs3]. simpl in *.
      split_and!; [done|done|by rewrite I3|]. constructor; [by eexists|done].
  Qed.
End slurp.

Section mem.
  Context {A : num} (it : set_order).
  Notation mobj := (obj A (gmap pyword winfo)).

  Lemma run_scores_untouched h : Forall is_score h -> forall o : mobj,
    same_training (fst (run mem_backend it h o)) o.
  Proof.
    induction 1 as [|c h Hc Hh IH]; intros o; simpl; [apply same_training_refl|].
    destruct c as [| |s]; try done. simpl. pose proof (untouched_spamprob_evidence it s o) as H.
    destruct (spamprob_evidence mem_backend it s o) as [o1 r]. simpl in *.
    specialize (IH o1). destruct (run mem_backend it h o1) as [o2 rs]. simpl in *.
    by eapply same_training_trans.
  Qed.

  Lemma slurp_run_untouched cs (o : slurper A (gmap pyword winfo)) : s_setup o = false ->
    same_training (s_obj (fst (slurp_run mem_backend it cs o))) (s_obj o).
  Proof.
    intros Hs. pose proof (slurp_run_spec mem_backend it cs o Hs) as H.
    destruct (slurp_run mem_backend it cs o) as [o' rs]. destruct H as (_ & H & _). simpl. rewrite H.
    apply run_scores_untouched, Forall_forall. intros c Hc. by apply elem_of_list_filter in Hc as [? _].
  Qed.

  Lemma slurp_new_all bg cs : total_num A -> set_order_ok it -> sane A ->
    Forall (fun x => fst x = Ok tt) cs -> forall h d, Forall is_score h ->
    snd (slurp_run mem_backend it cs (Slurper (fst (run mem_backend it h (c_new bg ∅ : mobj))) false d))
    = replicate (length cs) (Err TypeError).
  Proof.
    intros HA Hit Hsane. induction 1 as [|[mk c] cs Hmk Hcs IH]; intros h d Hh; [done|]. simpl in Hmk. subst mk.
    simpl. set (o := fst (run mem_backend it h (c_new bg ∅ : mobj))).
    assert (same_training o (c_new bg ∅ : mobj)) as Hst by by apply run_scores_untouched.
    assert (o_bigrams o = Some bg) as Hbg by (by destruct Hst as (_ & _ & _ & ->)).
    assert (forall o' r, slurp_call mem_backend it (Ok tt) c (Slurper o false d) = (o', r) ->
      r = Err TypeError /\ exists h' d', Forall is_score h' /\
      o' = Slurper (fst (run mem_backend it h' (c_new bg ∅ : mobj))) false d') as Hcall.
    { intros o' r E. destruct c as [s b|s b|s]; simpl in E.
      - pose proof (slurp_train_raises (Ok tt) (add_msg mem_backend it) s b (Slurper o false d) eq_refl) as H.
        unfold slurp_learn in E. rewrite E in H. simpl in H. destruct H as (H1 & H2 & H3 & _).
        rewrite Hbg in H3. split; [rewrite H3; by destruct d|].
        exists h, (s_dir o'). split; [done|]. destruct o'; simpl in *. by rewrite H1, H2.
      - pose proof (slurp_train_raises (Ok tt) (remove_msg mem_backend it) s b (Slurper o false d) eq_refl) as H.
        unfold slurp_unlearn in E. rewrite E in H. simpl in H. destruct H as (H1 & H2 & H3 & _).
        rewrite Hbg in H3. split; [rewrite H3; by destruct d|].
        exists h, (s_dir o'). split; [done|]. destruct o'; simpl in *. by rewrite H1, H2.
      - pose proof (slurp_spamprob_raises mem_backend it s true (Slurper o false d)) as H.
        destruct (slurp_spamprob mem_backend it s true (Slurper o false d)) as [o1 r1].
        destruct H as (H1 & H2 & H3 & ->). simpl in *. injection E as <- <-.
        destruct (no_clues_score it bg h s HA Hit Hsane) as (o2 & H & S' & E2).
        + fold o. destruct Hst as (_ & _ & -> & _). apply lookup_empty.
        + intros w _. fold o. exists (nQ A 1 2). unfold spam_probability.
          destruct Hst as (_ & _ & -> & _). simpl. rewrite lookup_empty. split; [done|]. apply Hsane.
        + fold o in E2. rewrite E2 in *. simpl in *. split; [done|].
          exists (h ++ [CScore s]), (s_dir o1). split; [apply Forall_app; by repeat constructor|].
          destruct o1 as [b1 s1 d1]; simpl in *. subst b1 s1 d1. f_equal.
          clear -E2. unfold o in E2. revert E2. generalize (c_new bg ∅ : mobj) as q. induction h as [|c h IHh]; intros q E2; simpl in *.
          * by rewrite E2.
          * destruct (run_call mem_backend it c q) as [q1 r1]. specialize (IHh q1).
            destruct (run mem_backend it h q1) as [q2 r2]. simpl in *.
            destruct (run mem_backend it (h ++ [CScore s]) q1) as [q3 r3]. simpl in *. by apply IHh. }
    destruct (slurp_call mem_backend it (Ok tt) c (Slurper o false d)) as [o1 r1] eqn:E.
    destruct (Hcall o1 r1 eq_refl) as (-> & h' & d' & Hh' & ->).
    specialize (IH h' d' Hh').
    destruct (slurp_run mem_backend it cs _) as [o2 rs]. simpl in *. by rewrite IH.
  Qed.
End mem.

(** ** base_url *)

Lemma before_slash_spec s : exists y, s ++ [47%N] = before_slash (s ++ [47%N]) ++ 47%N :: y.
Proof.
  induction s as [|c s [y IH]]; simpl; [by exists []|]. destruct (N.eqb_spec c 47) as [->|Hc].
  - by eexists.
  - exists y. simpl. by rewrite <- IH.
Qed.

Lemma before_slash_free s : 47%N ∉ before_slash s.
Proof.
  induction s as [|c s IH]; simpl; [set_solver|]. destruct (N.eqb_spec c 47) as [->|Hc]; set_solver.
Qed.

Lemma before_slash_host host path : 47%N ∉ host -> before_slash (host ++ 47%N :: path) = host.
Proof.
  induction host as [|c s IH]; intros H; simpl; [done|].
  destruct (N.eqb_spec c 47) as [->|Hc]; [set_solver|]. by rewrite IH by set_solver.
Qed.

Lemma host_of_unique url h h' : host_of url h -> host_of url h' -> h = h'.
Proof.
  intros [H1 H2] [H1' H2'].
  assert (before_slash (url ++ [47%N]) = h) as <-.
  { destruct H2 as [->|[y ->]]; [by apply before_slash_host|].
    rewrite <- app_assoc. simpl. by apply before_slash_host. }
  destruct H2' as [->|[y ->]]; [by apply before_slash_host|].
  rewrite <- app_assoc. simpl. by apply before_slash_host.
Qed.

Lemma host_of_before url : host_of url (before_slash (url ++ [47%N])).
Proof.
  split; [apply before_slash_free|].
  induction url as [|c s IH]; simpl; [by left|]. destruct (N.eqb_spec c 47) as [->|Hc].
  - right. by exists s.
  - destruct IH as [IH|[y IH]]; [left; by f_equal|right; exists y; simpl; by f_equal].
Qed.

Lemma base_url_host url host : host_of url host -> base_url url = base_url host.
Proof.
  intros H. unfold base_url.
  pose proof (host_of_unique url host _ H (host_of_before url)) as E. rewrite <- E.
  destruct H as [H _]. by rewrite before_slash_host.
Qed.

Lemma split_dot_snoc host p : 46%N ∉ p ->
  split_dot (host ++ 46%N :: p) = split_dot host ++ [p].
Proof.
  intros H. rewrite split_app. f_equal. apply (split_join [p]); [done|by repeat constructor].
Qed.

(** The tail labels of a host with at least two dots. *)
Lemma last_three (l : list codes) : 2 < length l -> exists l' a b c, l = l' ++ [a; b; c].
Proof.
  intros H. exists (take (length l - 3) l).
  assert (length (drop (length l - 3) l) = 3) as Hd by (rewrite drop_length; lia).
  destruct (drop (length l - 3) l) as [|a [|b [|c [|? ?]]]] eqn:E; try done.
  exists a, b, c. rewrite <- E. by rewrite take_drop.
Qed.

Lemma base_url_short host : 47%N ∉ host -> dots host <= 1 -> base_url host = host.
Proof.
  intros H D. unfold base_url. rewrite before_slash_host by done.
  rewrite split_length. destruct (Nat.ltb_spec 2 (S (dots host))); [lia|done].
Qed.

Lemma base_url_long l a b c : Forall (fun p => 46%N ∉ p) (l ++ [a; b; c]) ->
  47%N ∉ join_dot (l ++ [a; b; c]) ->
  base_url (join_dot (l ++ [a; b; c])) =
    if decide (length c < 3) then join_dot [a; b; c] else join_dot [b; c].
Proof.
  intros F H. unfold base_url. rewrite before_slash_host by done.
  rewrite split_join by (done || by destruct l).
  assert (length (l ++ [a; b; c]) = length l + 3) as EL by by rewrite app_length.
  rewrite EL.
  destruct (Nat.ltb_spec 2 (length l + 3)) as [_|]; [|lia]. cbv zeta.
  replace (length l + 3 - 1) with (length l + 2) by lia.
  replace (length l + 3 - 2) with (length l + 1) by lia.
  replace (length l + 3 - 3) with (length l + 0) by lia.
  assert (forall i, (l ++ [a; b; c]) !! (length l + i) = [a; b; c] !! i) as Q.
  { intros i. rewrite lookup_app_r by apply Nat.le_add_r. f_equal. rewrite Nat.add_comm. apply Nat.add_sub. }
  rewrite !Q. simpl.
  destruct (Nat.ltb_spec (length c) 3) as [Hc|Hc]; destruct (decide (length c < 3)); try lia; done.
Qed.

Lemma base_url_spec url host : host_of url host ->
  dot_suffix (base_url url) host /\
  (dots host <= 1 -> base_url url = host) /\
  (1 < dots host -> forall rest top, host = rest ++ 46%N :: top -> 46%N ∉ top ->
     dots (base_url url) = if decide (length top < 3) then 2 else 1).
Proof.
  intros H. rewrite (base_url_host url host H). destruct H as [H _].
  destruct (decide (dots host <= 1)) as [D|D].
  { rewrite base_url_short by done. split; [by left|]. split; [done|]. lia. }
  assert (2 < length (split_dot host)) as HL by (rewrite split_length; lia).
  destruct (last_three _ HL) as (l & a & b & c & El).
  pose proof (split_dot_free host) as Ff. rewrite El in Ff.
  assert (host = join_dot (l ++ [a; b; c])) as Eh by by rewrite <- El, join_split.
  assert (base_url host = if decide (length c < 3) then join_dot [a; b; c] else join_dot [b; c]) as Eb.
  { rewrite Eh. apply base_url_long; [done|by rewrite <- Eh]. }
  assert (Forall (fun p => 46%N ∉ p) [a; b; c]) as F3 by (apply Forall_app in Ff; tauto).
  assert (Forall (fun p => 46%N ∉ p) [b; c]) as F2 by by inversion F3.
  split_and!.
  - rewrite Eb, Eh. unfold dot_suffix.
    assert (forall m n, n <> [] -> dot_suffix (join_dot n) (join_dot (m ++ n))) as G.
    { intros m n Hn. destruct m as [|p m]; [by left|]. right. exists (join_dot (p :: m)). by apply join_app. }
    destruct (decide (length c < 3)).
    + by apply G.
    + replace (l ++ [a; b; c]) with ((l ++ [a]) ++ [b; c]) by by rewrite <- app_assoc. by apply G.
  - lia.
  - intros _ rest top E Ht. rewrite Eb.
    assert (top = c) as ->.
    { pose proof (split_dot_snoc rest top Ht) as E2. rewrite <- E, El in E2.
      replace (l ++ [a; b; c]) with ((l ++ [a; b]) ++ [c]) in E2 by by rewrite <- app_assoc.
      by apply app_inj_tail in E2 as [_ ->]. }
    destruct (decide (length c < 3)).
    + pose proof (dots_join [a; b; c] ltac:(done) F3) as Q. cbn [length] in Q. lia.
    + pose proof (dots_join [b; c] ltac:(done) F2) as Q. cbn [length] in Q. lia.
Qed.

Lemma base_url_idem url : base_url (base_url url) = base_url url.
Proof.
  set (host := before_slash (url ++ [47%N])).
  assert (host_of url host) as H by apply host_of_before.
  rewrite (base_url_host url host H). destruct H as [H _].
  destruct (decide (dots host <= 1)) as [D|D].
  { by rewrite !base_url_short by (done || rewrite base_url_short; done). }
  assert (2 < length (split_dot host)) as HL by (rewrite split_length; lia).
  destruct (last_three _ HL) as (l & a & b & c & El).
  pose proof (split_dot_free host) as Ff. rewrite El in Ff.
  assert (host = join_dot (l ++ [a; b; c])) as Eh by by rewrite <- El, join_split.
  assert (Forall (fun p => 46%N ∉ p) [a; b; c]) as F3 by (apply Forall_app in Ff; tauto).
  assert (Forall (fun p => 46%N ∉ p) [b; c]) as F2 by by inversion F3.
  assert (forall x, x ∈ join_dot [a; b; c] -> x ∈ host) as Hsub.
  { intros x Hx. rewrite Eh. destruct l as [|p l]; [done|].
    change ((p :: l) ++ [a; b; c]) with ((p :: l) ++ [a; b; c]). rewrite join_app by done. set_solver. }
  rewrite Eh at 1 2. rewrite !base_url_long by (done || by rewrite <- Eh).
  destruct (decide (length c < 3)) as [Hc|Hc].
  - pose proof (base_url_long [] a b c) as Q. rewrite !app_nil_l in Q. rewrite Q; [by rewrite decide_True|done|].
    intros Hx. by apply H, Hsub.
  - rewrite base_url_short; [done| |].
    + intros Hx. apply H, Hsub. rewrite join_cons_ne by done. set_solver.
    + pose proof (dots_join [b; c] ltac:(done) F2) as Q. cbn [length] in Q. lia.
Qed.

(** ** Forms used by the property file *)

Lemma slurp_train_outcome {A : num} {St : Type} (bk : backend St) (it : set_order) (makedirs : res unit)
    (learning : bool) s b (o : slurper A St) :
  s_setup o = false ->
  let '(o', r) := slurp_call bk it makedirs (if learning then CLearn s b else CUnlearn s b) o in
  s_obj o' = s_obj o /\
  (r = Err TypeError \/ (s_dir o = false /\ exists e, makedirs = Err e /\ r = Err e) \/
   (o_bigrams (s_obj o) = None /\ r = Err AttributeError)) /\
  (s_dir o' = true <-> s_dir o = true \/ (o_bigrams (s_obj o) <> None /\ makedirs = Ok tt)).
Proof.
  intros Hs. destruct learning; simpl; unfold slurp_learn, slurp_unlearn.
  - pose proof (slurp_train_raises makedirs (add_msg bk it) s b o Hs) as H.
    destruct (slurp_train makedirs (add_msg bk it) s b o) as [o1 r1]. destruct H as (H1 & H2 & -> & H4).
    split_and!; [done| |done]. destruct (o_bigrams (s_obj o)), (s_dir o), makedirs; naive_solver.
  - pose proof (slurp_train_raises makedirs (remove_msg bk it) s b o Hs) as H.
    destruct (slurp_train makedirs (remove_msg bk it) s b o) as [o1 r1]. destruct H as (H1 & H2 & -> & H4).
    split_and!; [done| |done]. destruct (o_bigrams (s_obj o)), (s_dir o), makedirs; naive_solver.
Qed.

Lemma slurp_score_outcome {A : num} {St : Type} (bk : backend St) (it : set_order) (makedirs : res unit) s (o : slurper A St) :
  let '(o', r) := slurp_call bk it makedirs (CScore s) o in
  s_dir o' = s_dir o /\
  match snd (spamprob_evidence bk it s (s_obj o)) with
  | Ok _ => r = Err TypeError
  | Err e => r = Err e
  end.
Proof.
  simpl. pose proof (slurp_spamprob_raises bk it s true o) as H.
  destruct (slurp_spamprob bk it s true o) as [o1 r1]. destruct H as (_ & _ & H & ->). split; [done|].
  by destruct (snd (spamprob_evidence bk it s (s_obj o))).
Qed.

Lemma slurp_new {A : num} (it : set_order) (bigrams : bool) cs :
  total_num A -> set_order_ok it -> sane A -> Forall (fun x => fst x = Ok tt) cs ->
  forall d, snd (slurp_run mem_backend it cs (Slurper (c_new bigrams ∅ : obj A _) false d))
  = replicate (length cs) (Err TypeError).
Proof. intros HA Hit Hs Hcs d. by apply (slurp_new_all it bigrams cs HA Hit Hs Hcs []). Qed.

Lemma base_url_same_host url url' host : host_of url host -> host_of url' host -> base_url url = base_url url'.
Proof. intros H H'. by rewrite (base_url_host url host H), (base_url_host url' host H'). Qed.
