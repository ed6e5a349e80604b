(** * Lost updates: schedules of processes that load, train and store *)
From Coq Require Import String Lia.
From Verif Require Import Py NumModel ClassifierModel TrainSpec TrainProofs ScoreProofs PickleModel PickleSpec
  PickleProofs LockProofs.
Local Open Scope nat_scope.

Lemma dumps_nonempty c t : codec_ok c -> dumps c t <> [].
Proof.
  intros [H1 H2] E.
  set (t' := PState (p_version t + 1) (p_words t) (p_nspam t) (p_nham t)).
  assert (loads c [] = None) as Hn.
  { apply (H2 t' [] (dumps c t')); [done|]. intros E'.
    assert (Some t = Some t') as [= Ht] by by rewrite <- (H1 t), <- (H1 t'), E, E'.
    assert (p_version t = p_version t') as Hv by by rewrite <- Ht. simpl in Hv. lia. }
  pose proof (H1 t) as H. rewrite E, Hn in H. done.
Qed.

(** Every write in three steps. *)
Definition plan1 : nat -> bytes -> list fstep := fun _ b => write_steps true [b] [b].

Lemma plan1_ok : plan_ok plan1.
Proof. intros i b. exists true, [b], [b]. simpl. by rewrite app_nil_r. Qed.

Definition read_moves (i n : nat) : list move := [MStep i 0; MStep i 0; MStep i n; MStep i 0; MStep i 0].
Definition write_moves (i : nat) : list move :=
  [MStep i 0; MStep i 0; MStep i 0; MStep i 0; MStep i 0; MStep i 0].

Lemma sys_run_app plan l1 l2 s : sys_run plan (l1 ++ l2) s = sys_run plan l2 (sys_run plan l1 s).
Proof. apply foldl_app. Qed.

Lemma run_cons plan m ms s : sys_run plan (m :: ms) s = sys_run plan ms (sys_step plan s m).
Proof. done. Qed.

Lemma run_nil plan s : sys_run plan [] s = s.
Proof. done. Qed.

(** One step of a process in a given phase. *)
Section steps.
  Context (plan : nat -> bytes -> list fstep) (db : option bytes) (f : nat -> phase) (log : list event) (i n : nat).

  Lemma step_acquire_read k : f i = Ready (PRead k) ->
    sys_step plan (Sys db None f log) (MStep i n) = Sys db (Some i) (set_proc f i (InRead None k)) log.
  Proof. intros E. unfold sys_step. cbn [sys_procs]. by rewrite E. Qed.

  Lemma step_acquire_write b k : f i = Ready (PWrite b k) ->
    sys_step plan (Sys db None f log) (MStep i n) = Sys db (Some i) (set_proc f i (InWrite (plan i b) None b k)) log.
  Proof. intros E. unfold sys_step. cbn [sys_procs]. by rewrite E. Qed.

  Lemma step_open l d k : f i = InRead None k -> db = Some d ->
    sys_step plan (Sys db l f log) (MStep i n) = Sys db l (set_proc f i (InRead (Some []) k)) log.
  Proof. intros E ->. unfold sys_step. cbn [sys_procs]. by rewrite E. Qed.

  Lemma step_read_all l d k : f i = InRead (Some []) k -> db = Some d -> d <> [] -> length d <= n ->
    sys_step plan (Sys db l f log) (MStep i n) = Sys db l (set_proc f i (InRead (Some d) k)) log.
  Proof.
    intros E -> Hne Hn. unfold sys_step. cbn [sys_procs sys_db]. rewrite E. change (default [] (Some d)) with d. cbn [length].
    rewrite drop_0. destruct d as [|x d]; [done|]. cbn [app]. rewrite firstn_all2 by (simpl in *; lia). done.
  Qed.

  Lemma step_eof l d k : f i = InRead (Some d) k -> db = Some d ->
    sys_step plan (Sys db l f log) (MStep i n) =
      Sys db l (set_proc f i (Leave (k (Ok d)))) (log ++ [EvRead i (Ok d)]).
  Proof.
    intros E ->. unfold sys_step. cbn [sys_procs sys_db]. rewrite E.
    change (default [] (Some d)) with d. by rewrite drop_all.
  Qed.

  Lemma step_leave l p : f i = Leave p ->
    sys_step plan (Sys db l f log) (MStep i n) = Sys db None (set_proc f i (Ready p)) log.
  Proof. intros E. unfold sys_step. cbn [sys_procs]. by rewrite E. Qed.

  Lemma step_write l x todo tmp b k : f i = InWrite (x :: todo) tmp b k ->
    sys_step plan (Sys db l f log) (MStep i n) =
      Sys (f_db (fs_apply (FS db tmp) x)) l
          (set_proc f i (InWrite todo (f_tmp (fs_apply (FS db tmp) x)) b k)) log.
  Proof. intros E. unfold sys_step. cbn [sys_procs]. by rewrite E. Qed.

  Lemma step_written l tmp b k : f i = InWrite [] tmp b k ->
    sys_step plan (Sys db l f log) (MStep i n) =
      Sys db l (set_proc f i (Leave (k (Ok tt)))) (log ++ [EvWrite i b]).
  Proof. intros E. unfold sys_step. cbn [sys_procs]. by rewrite E. Qed.

  Lemma step_timeout j k : f i = Ready (PRead k) ->
    sys_step plan (Sys db (Some j) f log) (MTimeout i) =
      Sys db (Some j) (set_proc f i (Ready (k (Err LockTimeout)))) log.
  Proof. intros E. unfold sys_step. cbn [sys_procs sys_lock]. by rewrite E. Qed.
End steps.

Lemma read_script s i k d : sys_lock s = None -> sys_procs s i = Ready (PRead k) -> sys_db s = Some d ->
  d <> [] -> let s' := sys_run plan1 (read_moves i (length d)) s in
  sys_db s' = Some d /\ sys_lock s' = None /\ sys_procs s' i = Ready (k (Ok d)) /\
  (forall j, j <> i -> sys_procs s' j = sys_procs s j) /\ sys_log s' = sys_log s ++ [EvRead i (Ok d)].
Proof.
  intros Hl Hp Hd Hne. destruct s as [db lock procs log].
  cbn [sys_lock sys_procs sys_db sys_log] in *. subst lock db. unfold read_moves.
  rewrite run_cons, (step_acquire_read _ _ _ _ _ _ k) by done.
  rewrite run_cons, (step_open _ _ _ _ _ _ _ d k) by (by rewrite ?set_proc_eq).
  rewrite run_cons, (step_read_all _ _ _ _ _ _ _ d k) by (by rewrite ?set_proc_eq).
  rewrite run_cons, (step_eof _ _ _ _ _ _ _ d k) by (by rewrite ?set_proc_eq).
  rewrite run_cons, (step_leave _ _ _ _ _ _ _ (k (Ok d))) by (by rewrite ?set_proc_eq).
  rewrite run_nil. cbn [sys_lock sys_procs sys_db sys_log]. rewrite set_proc_eq.
  split_and!; try done. intros j Hj. by rewrite !set_proc_ne.
Qed.

Lemma write_script s i b k : sys_lock s = None -> sys_procs s i = Ready (PWrite b k) ->
  let s' := sys_run plan1 (write_moves i) s in
  sys_db s' = Some b /\ sys_lock s' = None /\ sys_procs s' i = Ready (k (Ok tt)) /\
  (forall j, j <> i -> sys_procs s' j = sys_procs s j) /\ sys_log s' = sys_log s ++ [EvWrite i b].
Proof.
  intros Hl Hp. destruct s as [db lock procs log].
  cbn [sys_lock sys_procs sys_db sys_log] in *. subst lock. unfold write_moves.
  rewrite run_cons, (step_acquire_write _ _ _ _ _ _ b k) by done.
  change (plan1 i b) with [TmpCreate; TmpAppend b; Rename].
  do 3 (rewrite run_cons; erewrite step_write by apply set_proc_eq; cbn [fs_apply f_db f_tmp fmap option_fmap option_map app]).
  rewrite run_cons; erewrite step_written by apply set_proc_eq.
  rewrite run_cons; erewrite step_leave by apply set_proc_eq.
  rewrite run_nil. cbn [sys_lock sys_procs sys_db sys_log]. rewrite set_proc_eq.
  split_and!; try done. intros j Hj. by rewrite !set_proc_ne.
Qed.

Section races.
  Context {A : num} (c : codec) (Hc : codec_ok c) (it : set_order) (Hit : set_order_ok it).
  Notation mstore := (gmap pyword winfo).
  Notation mobj := (obj A mstore).

  (** What a training process writes when it has read a stored classifier. *)
  Definition trained (o : mobj) (s : stream) (b : bool) : mobj :=
    fst (learn mem_backend it s b (Obj (Some false) (o_nspam o) (o_nham o) ∅ (o_store o))).

  Lemma trained_spec o s : o_nspam (trained o s true) = (o_nspam o + 1)%Z.
  Proof.
    unfold trained.
    destruct (learn_mem it Hit s true false (Obj (Some false) (o_nspam o) (o_nham o) ∅ (o_store o) : mobj) eq_refl)
      as (m'&->&_). done.
  Qed.

  Lemma train_after_read o s b :
    (match train_prog A c it s b with PRead k => k (Ok (pickle c o)) | _ => PDone end)
    = PWrite (pickle c (trained o s b)) (fun _ => PDone).
  Proof.
    unfold train_prog, trained. pose proof (load_stored c Hc o (c_new false ∅)) as E.
    unfold pickle_store in E. by rewrite E.
  Qed.

  Lemma lost_update (o : mobj) m0 m1 : exists plan ms, plan_ok plan /\
    let s := sys_run plan ms (sys_init (Some (pickle c o))
                                (two (train_prog A c it m0 true) (train_prog A c it m1 true))) in
    (forall i, sys_procs s i = Ready PDone) /\
    (exists b0 b1, sys_log s = [EvRead 0 (Ok (pickle c o)); EvRead 1 (Ok (pickle c o));
                                EvWrite 0 b0; EvWrite 1 b1]) /\
    exists b (o' : mobj), sys_db s = Some b /\ unpickle c b = Ok o' /\ o_nspam o' = (o_nspam o + 1)%Z.
  Proof.
    set (d := pickle c o).
    assert (d <> []) as Hd by by apply dumps_nonempty.
    exists plan1, (read_moves 0 (length d) ++ read_moves 1 (length d) ++ write_moves 0 ++ write_moves 1).
    split; [apply plan1_ok|]. rewrite !sys_run_app.
    match goal with |- context [sys_init ?x ?y] => set (s0 := sys_init x y) end.
    edestruct (read_script s0 0 _ d eq_refl eq_refl eq_refl Hd) as (A1&A2&A3&A4&A5).
    set (s1 := sys_run plan1 (read_moves 0 (length d)) s0) in *.
    edestruct (read_script s1 1 _ d A2 (A4 1 ltac:(done)) A1 Hd) as (B1&B2&B3&B4&B5).
    set (s2 := sys_run plan1 (read_moves 1 (length d)) s1) in *.
    pose proof (train_after_read o m0 true) as E0. pose proof (train_after_read o m1 true) as E1.
    assert (sys_procs s2 0 = Ready (PWrite (pickle c (trained o m0 true)) (fun _ => PDone))) as A3'
      by (rewrite (B4 0), A3 by done; f_equal; exact E0).
    assert (sys_procs s2 1 = Ready (PWrite (pickle c (trained o m1 true)) (fun _ => PDone))) as B3''
      by (rewrite B3; f_equal; exact E1).
    destruct (write_script s2 0 _ _ B2 A3') as (C1&C2&C3&C4&C5).
    set (s3 := sys_run plan1 (write_moves 0) s2) in *.
    pose proof (C4 1 ltac:(done)) as B3'. rewrite B3'' in B3'.
    destruct (write_script s3 1 _ _ C2 B3') as (D1&D2&D3&D4&D5).
    set (s4 := sys_run plan1 (write_moves 1) s3) in *. cbv zeta.
    split_and!.
    - intros [|[|i]]; [by rewrite D4|done|by rewrite D4, C4, B4, A4].
    - do 2 eexists. rewrite D5, C5, B5, A5. done.
    - do 2 eexists. split_and!; [exact D1|by apply unpickle_pickle|]. simpl. apply trained_spec.
  Qed.

  (** One after the other, both updates arrive. *)
  Lemma serial_updates (o : mobj) m0 m1 : exists plan ms, plan_ok plan /\
    let s := sys_run plan ms (sys_init (Some (pickle c o))
                                (two (train_prog A c it m0 true) (train_prog A c it m1 true))) in
    (forall i, sys_procs s i = Ready PDone) /\
    exists b (o' : mobj), sys_db s = Some b /\ unpickle c b = Ok o' /\ o_nspam o' = (o_nspam o + 2)%Z.
  Proof.
    set (d := pickle c o). set (e := pickle c (trained o m0 true)).
    assert (d <> []) as Hd by by apply dumps_nonempty.
    assert (e <> []) as He by by apply dumps_nonempty.
    exists plan1, (read_moves 0 (length d) ++ write_moves 0 ++ read_moves 1 (length e) ++ write_moves 1).
    split; [apply plan1_ok|]. rewrite !sys_run_app.
    match goal with |- context [sys_init ?x ?y] => set (s0 := sys_init x y) end.
    edestruct (read_script s0 0 _ d eq_refl eq_refl eq_refl Hd) as (A1&A2&A3&A4&A5).
    set (s1 := sys_run plan1 (read_moves 0 (length d)) s0) in *.
    pose proof (train_after_read o m0 true) as E0.
    pose proof (train_after_read (trained o m0 true) m1 true) as E1.
    fold d in E0. fold e in E0, E1.
    assert (sys_procs s1 0 = Ready (PWrite e (fun _ => PDone))) as A3' by (rewrite A3; f_equal; exact E0).
    destruct (write_script s1 0 _ _ A2 A3') as (B1&B2&B3&B4&B5).
    set (s2 := sys_run plan1 (write_moves 0) s1) in *.
    pose proof (B4 1 ltac:(done)) as A4'. rewrite A4 in A4' by done.
    edestruct (read_script s2 1 _ e B2 A4' B1 He) as (C1&C2&C3&C4&C5).
    set (s3 := sys_run plan1 (read_moves 1 (length e)) s2) in *.
    assert (sys_procs s3 1 = Ready (PWrite (pickle c (trained (trained o m0 true) m1 true)) (fun _ => PDone))) as C3'
      by (rewrite C3; f_equal; exact E1).
    destruct (write_script s3 1 _ _ C2 C3') as (D1&D2&D3&D4&D5).
    set (s4 := sys_run plan1 (write_moves 1) s3) in *. cbv zeta.
    split_and!.
    - intros [|[|i]]; [by rewrite D4, C4, B3|done|by rewrite D4, C4, B4, A4].
    - do 2 eexists. split_and!; [exact D1|by apply unpickle_pickle|]. simpl.
      rewrite !trained_spec. lia.
  Qed.

  (** A reader that holds the lock too long destroys the database: the training
      process times out, starts empty and stores. *)
  Lemma timeout_wipes (o : mobj) m1 : exists plan ms, plan_ok plan /\
    let s := sys_run plan ms (sys_init (Some (pickle c o))
                                (two (PRead (fun _ => PDone)) (train_prog A c it m1 true))) in
    (forall i, sys_procs s i = Ready PDone) /\
    exists b (o' : mobj), sys_db s = Some b /\ unpickle c b = Ok o' /\ o_nspam o' = 1%Z /\ o_nham o' = 0%Z.
  Proof.
    set (d := pickle c o).
    assert (d <> []) as Hd by by apply dumps_nonempty.
    exists plan1, ([MStep 0 0; MTimeout 1; MStep 0 0; MStep 0 (length d); MStep 0 0; MStep 0 0] ++ write_moves 1).
    split; [apply plan1_ok|]. rewrite !sys_run_app.
    match goal with |- context [sys_init ?x ?y] => set (s0 := sys_init x y) end.
    set (s1 := sys_run plan1 [MStep 0 0; MTimeout 1; MStep 0 0; MStep 0 (length d); MStep 0 0; MStep 0 0] s0).
    assert (exists m', sys_lock s1 = None /\
      sys_procs s1 1 = Ready (PWrite (pickle c (Obj (Some false) 1 0 ∅ m' : mobj)) (fun _ => PDone)) /\
      forall j, j <> 1 -> sys_procs s1 j = Ready PDone) as (m'&L1&P1&P2).
    { destruct (learn_mem it Hit m1 true false (c_new false ∅ : mobj) eq_refl) as (m'&E&_).
      exists m'. unfold s1, s0, sys_init. 
      rewrite run_cons; erewrite step_acquire_read by reflexivity.
      rewrite run_cons; erewrite step_timeout by reflexivity.
      rewrite run_cons; erewrite step_open by reflexivity.
      rewrite run_cons; erewrite step_read_all by first [done|reflexivity|apply le_n].
      rewrite run_cons; erewrite step_eof by reflexivity.
      rewrite run_cons; erewrite step_leave by reflexivity.
      rewrite run_nil. cbn [sys_lock sys_procs]. split_and!; [done| |].
      - cbn [set_proc Nat.eqb]. unfold pickle_load, pickle_read. cbn [fst o_bigrams c_new o_cache].
        unfold c_new in E. rewrite E. done.
      - intros [|[|j]]; done. }
    destruct (write_script s1 1 _ _ L1 P1) as (D1&D2&D3&D4&D5). cbv zeta. split.
    - intros i. destruct (decide (i = 1)) as [->|Hi]; [done|]. by rewrite D4, P2.
    - do 2 eexists. split_and!; [exact D1|by apply unpickle_pickle|done|done].
  Qed.
End races.

(** ** A codec that satisfies the laws (a unary code) *)
Global Instance pstate_eq_dec : EqDecision pstate.
Proof. solve_decision. Defined.

Global Instance winfo_countable : Countable winfo.
Proof.
  refine (inj_countable' (fun r => (spamcount r, hamcount r)) (fun p => WI p.1 p.2) _).
  by intros [].
Qed.

Global Instance pstate_countable : Countable pstate.
Proof.
  refine (inj_countable' (fun t => (p_version t, p_words t, p_nspam t, p_nham t))
                         (fun q => let '(v, m, s, h) := q in PState v m s h) _).
  by intros [].
Qed.

Fixpoint ones (b : bytes) : option nat :=
  match b with
  | [] => None
  | 0%N :: [] => Some 0
  | 1%N :: b => S <$> ones b
  | _ => None
  end.

Definition unary_codec : codec :=
  Codec (fun t => replicate (encode_nat t) 1%N ++ [0%N]) (fun b => ones b ≫= decode_nat).

Lemma ones_unary n : ones (replicate n 1%N ++ [0%N]) = Some n.
Proof. induction n as [|n IH]; simpl; [done|]. by rewrite IH. Qed.

Lemma ones_replicate n : ones (replicate n 1%N) = None.
Proof. induction n as [|n IH]; simpl; [done|]. by rewrite IH. Qed.

Lemma unary_prefix n : forall b rest, replicate n 1%N ++ [0%N] = b ++ rest -> rest <> [] ->
  exists m, b = replicate m 1%N.
Proof.
  induction n as [|n IH]; intros b rest E Hr; simpl in E.
  - destruct b as [|x b]; [by exists 0|]. injection E as <- E. destruct b; [|done]. by destruct rest.
  - destruct b as [|x b]; [by exists 0|]. injection E as <- E.
    destruct (IH b rest E Hr) as [m ->]. by exists (S m).
Qed.

Lemma unary_codec_ok : codec_ok unary_codec.
Proof.
  split.
  - intros t. simpl. rewrite ones_unary. simpl. apply decode_encode_nat.
  - intros t b rest E Hr. destruct (unary_prefix _ b rest E Hr) as [m ->]. simpl. by rewrite ones_replicate.
Qed.
