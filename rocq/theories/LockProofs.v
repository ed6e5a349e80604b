(** * Lemmas about processes sharing a pickle file *)
From Coq Require Import String Lia.
From Verif Require Import Py NumModel ClassifierModel TrainSpec TrainProofs ScoreProofs PickleModel PickleSpec
  PickleProofs.
Local Open Scope nat_scope.

(** The value of the register after a log. *)
Definition reg (v : option bytes) (log : list event) : option bytes :=
  foldl (fun v e => match e with EvRead _ _ => v | EvWrite _ b => Some b end) v log.

Lemma reg_app v l1 l2 : reg v (l1 ++ l2) = reg (reg v l1) l2.
Proof. apply foldl_app. Qed.

Lemma register_app l1 : forall v l2,
  register_history v (l1 ++ l2) <-> register_history v l1 /\ register_history (reg v l1) l2.
Proof.
  induction l1 as [|[i r|i b] l1 IH]; intros v l2; simpl; [tauto| |].
  - rewrite IH. tauto.
  - rewrite IH. tauto.
Qed.

Lemma set_proc_eq f i p : set_proc f i p i = p.
Proof. unfold set_proc. by rewrite Nat.eqb_refl. Qed.

Lemma set_proc_ne f i j p : j <> i -> set_proc f i p j = f j.
Proof. unfold set_proc. intros H. by rewrite (proj2 (Nat.eqb_neq j i) H). Qed.

Section system.
  Context (plan : nat -> bytes -> list fstep) (Hplan : plan_ok plan) (v0 : option bytes).

  (** What holds of the process with the lock. *)
  Definition holder_ok (s : sys) (p : phase) : Prop :=
    match p with
    | InRead None _ | Leave _ => sys_db s = reg v0 (sys_log s)
    | InRead (Some acc) _ => exists d rest, sys_db s = Some d /\ reg v0 (sys_log s) = Some d /\ d = acc ++ rest
    | InWrite todo tmp b _ => f_db (foldl fs_apply (FS (sys_db s) tmp) todo) = Some b
    | Dead => True
    | Ready _ => False
    end.

  Record sinv (s : sys) : Prop := {
    y_mutex : forall i, in_critical (sys_procs s i) -> sys_lock s = Some i;
    y_free : sys_lock s = None -> sys_db s = reg v0 (sys_log s);
    y_held : forall i, sys_lock s = Some i -> holder_ok s (sys_procs s i);
    y_log : register_history v0 (sys_log s)
  }.

  Lemma sinv_init progs : sinv (sys_init v0 progs).
  Proof. constructor; simpl; done. Qed.

  (** Changing one process that does not hold the lock. *)
  Lemma sinv_outside s i p : sinv s -> sys_lock s <> Some i -> ~ in_critical p ->
    sinv (Sys (sys_db s) (sys_lock s) (set_proc (sys_procs s) i p) (sys_log s)).
  Proof.
    intros [Y1 Y2 Y3 Y4] Hl Hp. constructor; simpl; try done.
    - intros j. destruct (decide (j = i)) as [->|Hne].
      + by rewrite set_proc_eq.
      + rewrite set_proc_ne by done. apply Y1.
    - intros j Hj. destruct (decide (j = i)) as [->|Hne]; [done|]. rewrite set_proc_ne by done. by apply Y3.
  Qed.

  (** Changing the process that holds the lock. *)
  Lemma sinv_holder s i p db log : sinv s -> sys_lock s = Some i ->
    let s' := Sys db (Some i) (set_proc (sys_procs s) i p) log in
    holder_ok s' p -> register_history v0 log -> sinv s'.
  Proof.
    intros [Y1 Y2 Y3 Y4] Hl s' Hp Hlog. constructor; simpl; try done.
    - intros j. destruct (decide (j = i)) as [->|Hne]; [done|].
      rewrite set_proc_ne by done. intros Hc. apply Y1 in Hc. congruence.
    - intros j [= <-]. by rewrite set_proc_eq.
  Qed.

  Lemma sinv_acquire s i p : sinv s -> sys_lock s = None ->
    let s' := Sys (sys_db s) (Some i) (set_proc (sys_procs s) i p) (sys_log s) in
    holder_ok s' p -> sinv s'.
  Proof.
    intros [Y1 Y2 Y3 Y4] Hl s' Hp. constructor; simpl; try done.
    - intros j. destruct (decide (j = i)) as [->|Hne]; [done|].
      rewrite set_proc_ne by done. intros Hc. apply Y1 in Hc. congruence.
    - intros j [= <-]. by rewrite set_proc_eq.
  Qed.

  Lemma sinv_step s m : sinv s -> sinv (sys_step plan s m).
  Proof.
    intros Y. destruct m as [i n|i|i]; simpl.
    - destruct (sys_procs s i) as [p|acc k|todo tmp b k|p|] eqn:Ep; [| | | |done].
      + destruct p as [|k|b k]; [done| |].
        * destruct (sys_lock s) as [j|] eqn:El; [done|]. apply sinv_acquire; [done..|]. simpl. by apply Y.
        * destruct (sys_lock s) as [j|] eqn:El; [done|]. apply sinv_acquire; [done..|]. simpl.
          destruct (Hplan i b) as (same&chunks&copied&->&E1&E2). by apply write_all.
      + assert (sys_lock s = Some i) as El by (apply Y; by rewrite Ep).
        pose proof (y_held s Y i El) as H. rewrite Ep in H. destruct acc as [acc|]; simpl in H.
        * destruct H as (d&rest&Ed&Er&->). rewrite Ed. cbn [default]. simpl. rewrite drop_app.
          destruct rest as [|x rest].
          -- rewrite El. apply sinv_holder; [done..| |].
             ++ simpl. rewrite reg_app. simpl. by rewrite Er, app_nil_r.
             ++ apply register_app. split; [apply Y|]. simpl. by rewrite Er, app_nil_r.
          -- rewrite El. apply sinv_holder; [done..| |apply Y].
             simpl. exists (acc ++ x :: rest), (drop n rest). split_and!; [done..|].
             rewrite <- app_assoc. simpl. by rewrite take_drop.
        * destruct (sys_db s) as [d|] eqn:Ed.
          -- rewrite El. apply sinv_holder; [done..| |apply Y]. simpl. by exists d, d.
          -- rewrite El. apply sinv_holder; [done..| |].
             ++ simpl. by rewrite reg_app.
             ++ apply register_app. split; [apply Y|]. simpl. by rewrite <- H.
      + assert (sys_lock s = Some i) as El by (apply Y; by rewrite Ep).
        pose proof (y_held s Y i El) as H. rewrite Ep in H. simpl in H.
        destruct todo as [|x todo]; rewrite El; (apply sinv_holder; [done..| |]).
        * simpl. rewrite reg_app. exact H.
        * apply register_app. split; [apply Y|done].
        * simpl. simpl in H. by destruct (fs_apply (FS (sys_db s) tmp) x).
        * apply Y.
      + assert (sys_lock s = Some i) as El by (apply Y; by rewrite Ep).
        pose proof (y_held s Y i El) as H. rewrite Ep in H. simpl in H.
        constructor; simpl; try done; [|apply Y].
        intros j. destruct (decide (j = i)) as [->|Hne].
        * by rewrite set_proc_eq.
        * rewrite set_proc_ne by done. intros Hc. apply (y_mutex s Y) in Hc. congruence.
    - destruct (sys_lock s) as [j|] eqn:El; [|done].
      destruct (sys_procs s i) as [p| | | |] eqn:Ep; try done.
      assert (sys_lock s <> Some i) as Hl.
      { intros Hl. pose proof (y_held s Y i Hl) as H. by rewrite Ep in H. }
      destruct p as [|k|b k]; [done|..]; rewrite <- El; (apply sinv_outside; [done..|by intros []]).
    - destruct (decide (sys_lock s = Some i)) as [Hl|Hl].
      + rewrite Hl. apply sinv_holder; [done..|]. apply Y.
      + apply sinv_outside; [done..|]. intros [].
  Qed.

  Lemma sinv_run ms : forall s, sinv s -> sinv (sys_run plan ms s).
  Proof. induction ms as [|m ms IH]; intros s Y; [done|]. simpl. apply IH. by apply sinv_step. Qed.

  Lemma mutual_exclusion progs ms i j :
    let s := sys_run plan ms (sys_init v0 progs) in
    in_critical (sys_procs s i) -> in_critical (sys_procs s j) -> i = j.
  Proof.
    intros s Hi Hj. pose proof (sinv_run ms _ (sinv_init progs)) as Y. fold s in Y.
    apply (y_mutex s Y) in Hi, Hj. congruence.
  Qed.

  Lemma atomic_register progs ms : register_history v0 (sys_log (sys_run plan ms (sys_init v0 progs))).
  Proof. apply y_log, sinv_run, sinv_init. Qed.

  (** ** A process that died with the lock *)
  Lemma stuck_step s m i : sinv s -> sys_lock s = Some i -> sys_procs s i = Dead ->
    let s' := sys_step plan s m in
    sys_lock s' = Some i /\ sys_procs s' i = Dead /\ sys_db s' = sys_db s /\ sys_log s' = sys_log s /\
    forall j, only_waits (sys_procs s j) (sys_procs s' j).
  Proof.
    intros Y Hl Hd. destruct m as [j n|j|j]; simpl.
    - assert (~ in_critical (sys_procs s j)) as Hnc.
      { intros Hc. pose proof (y_mutex s Y j Hc) as Hj. rewrite Hj in Hl. injection Hl as ->. by rewrite Hd in Hc. }
      destruct (sys_procs s j) as [p| | | |] eqn:Ep; try (by destruct Hnc).
      + destruct p as [|k|b k]; rewrite ?Hl; (split_and!; [done..|intros ?; apply rtc_refl]).
      + split_and!; [done..|intros ?; apply rtc_refl].
    - rewrite Hl. destruct (sys_procs s j) as [p| | | |] eqn:Ep;
        try (split_and!; [done..|intros ?; apply rtc_refl]).
      destruct p as [|k|b k]; [split_and!; [done..|intros ?; apply rtc_refl]|..];
        (simpl; split_and!; [done| |done|done|]).
      1,3: destruct (decide (i = j)) as [->|?]; [congruence|by rewrite set_proc_ne].
      all: intros j'; destruct (decide (j' = j)) as [->|?];
        [rewrite set_proc_eq, Ep; apply rtc_once; eauto 10|rewrite set_proc_ne by done; apply rtc_refl].
    - split_and!; [done| |done|done|].
      + destruct (decide (i = j)) as [->|?]; [by rewrite set_proc_eq|by rewrite set_proc_ne].
      + intros j'; destruct (decide (j' = j)) as [->|?];
          [rewrite set_proc_eq; apply rtc_once; eauto|rewrite set_proc_ne by done; apply rtc_refl].
  Qed.

  Lemma stuck_run i ms : forall s, sinv s -> sys_lock s = Some i -> sys_procs s i = Dead ->
    let s' := sys_run plan ms s in
    sys_lock s' = Some i /\ sys_db s' = sys_db s /\ sys_log s' = sys_log s /\
    forall j, only_waits (sys_procs s j) (sys_procs s' j).
  Proof.
    induction ms as [|m ms IH]; intros s Y Hl Hd.
    - split_and!; try done. intros j. apply rtc_refl.
    - destruct (stuck_step s m i Y Hl Hd) as (H1&H2&H3&H4&H5). simpl.
      destruct (IH (sys_step plan s m) (sinv_step s m Y) H1 H2) as (J1&J3&J4&J5).
      split_and!; [done|congruence|congruence|]. intros j.
      eapply rtc_transitive; [apply H5|apply J5].
  Qed.

  Lemma dead_holder_blocks progs ms i ms' :
    let s := sys_run plan ms (sys_init v0 progs) in
    in_critical (sys_procs s i) ->
    let s' := sys_run plan (MKill i :: ms') s in
    sys_lock s' = Some i /\ sys_db s' = sys_db s /\ sys_log s' = sys_log s /\
    forall j, only_waits (sys_procs s j) (sys_procs s' j).
  Proof.
    intros s Hc. pose proof (sinv_run ms _ (sinv_init progs)) as Y. fold s in Y.
    pose proof (y_mutex s Y i Hc) as Hl. simpl.
    destruct (stuck_run i ms' (sys_step plan s (MKill i)) (sinv_step s _ Y)) as (J1&J3&J4&J5).
    - done.
    - simpl. by rewrite set_proc_eq.
    - split_and!; try done. intros j. eapply rtc_transitive; [|apply J5]. simpl.
      destruct (decide (j = i)) as [->|?];
        [rewrite set_proc_eq; apply rtc_once; eauto|rewrite set_proc_ne by done; apply rtc_refl].
  Qed.

  (** A dead holder kills acquisition for good: a process that waits can only
      go on waiting, time out or die. *)
  Lemma only_waits_never_inside p q : ~ in_critical p -> only_waits p q -> ~ in_critical q.
  Proof.
    intros Hp H. induction H as [|p q r [->|[(k&->&->)|(b&k&->&->)]] _ IH]; [done|apply IH; by intros []..].
  Qed.
End system.
